From Coq Require Import Ascii String List Bool Arith Lia.
From Verif Require Import Columns_Model Columns_Spec.
Import ListNotations.
Local Open Scope list_scope.
Notation blanks n := (repeat blank n).

(** * Stripping *)
Lemma isblank_space c : isblank c = true <-> space c.
Proof.
  unfold isblank, space. rewrite !orb_true_iff, !Ascii.eqb_eq. cbn [In].
  split.
  - intros [[[->| ->]| ->]| ->]; cbn; tauto.
  - intros [E|[E|[E|[E|[]]]]]; pose proof (ascii_nat_embedding c) as X; rewrite <- E in X; rewrite <- X; [do 3 left|do 2 left; right|left; right|right]; reflexivity.
Qed.
Lemma lstrip_blanks n s : lstrip (blanks n ++ s) = lstrip s.
Proof. induction n as [|n IH]; [reflexivity|]. exact IH. Qed.
Lemma rev_blanks n : rev (blanks n) = blanks n.
Proof.
  assert (E : forall k, blanks k ++ [blank] = blank :: blanks k) by (induction k as [|k IHk]; [reflexivity|cbn; rewrite IHk; reflexivity]).
  induction n as [|n IH]; [reflexivity|]. cbn [repeat rev]. rewrite IH. apply E.
Qed.
Lemma lstrip_head s : s = [] \/ isblank (hd blank s) = false -> lstrip s = s.
Proof. intros [->|H]; [reflexivity|]. destruct s as [|c r]; [reflexivity|]. cbn in *. rewrite H. reflexivity. Qed.
Lemma lstrip_snoc s n : lstrip (s ++ blanks n) = match lstrip s with [] => [] | _ => lstrip s ++ blanks n end.
Proof.
  induction s as [|c r IH]; cbn [app lstrip].
  - rewrite <- (app_nil_r (blanks n)), lstrip_blanks. reflexivity.
  - destruct (isblank c); [exact IH|reflexivity].
Qed.
Lemma strip_right s n : strip (s ++ blanks n) = strip s.
Proof.
  unfold strip. rewrite lstrip_snoc. destruct (lstrip s) as [|c r]; [reflexivity|]. rewrite rev_app_distr, rev_blanks, lstrip_blanks. reflexivity.
Qed.
Lemma strip_left n s : strip (blanks n ++ s) = strip s.
Proof. unfold strip. rewrite lstrip_blanks. reflexivity. Qed.
Lemma not_space c : ~ space c -> isblank c = false.
Proof. intros H. destruct (isblank c) eqn:E; [exfalso; apply H, isblank_space, E|reflexivity]. Qed.
Lemma strip_neat f : neat f -> strip f = f.
Proof.
  intros [->|(m & H1 & E & H2)]; [reflexivity|]. unfold strip. rewrite (lstrip_head f) by (right; apply not_space, H1).
  rewrite (lstrip_head (rev f)); [apply rev_involutive|]. right. rewrite E, rev_app_distr. cbn. apply not_space, H2.
Qed.

(** * Slices *)
Lemma nth_skipn' {A} (l : list A) d : forall s i, nth i (skipn s l) d = nth (s + i) l d.
Proof. induction l as [|a l IH]; intros s i; destruct s; try reflexivity; [destruct i; reflexivity|apply IH]. Qed.
Lemma between_slice l s n : exists k, map (char_at l) (seq (S s) n) = firstn n (skipn s l) ++ blanks k.
Proof.
  assert (G : forall n (t : list ascii), exists k, map (fun i => nth i t blank) (seq 0 n) = firstn n t ++ blanks k).
  { clear. induction n as [|n IH]; intros t; [exists 0; reflexivity|]. cbn [seq map]. rewrite <- seq_shift, map_map.
    destruct t as [|c t].
    - destruct (IH []) as (k & E). exists (S k). cbn [nth firstn app repeat]. f_equal. rewrite firstn_nil in E. cbn [app] in E.
      rewrite <- E. apply map_ext. intros i. destruct i; reflexivity.
    - destruct (IH t) as (k & E). exists k. cbn [nth firstn app]. f_equal. exact E. }
  destruct (G n (skipn s l)) as (k & E). exists k. rewrite <- E. rewrite <- (Nat.add_0_r (S s)).
  replace (seq (S s + 0) n) with (map (fun i => S s + i) (seq 0 n)).
  - rewrite map_map. apply map_ext. intros i. unfold char_at. replace (S s + i - 1) with (s + i) by lia. symmetry. apply nth_skipn'.
  - clear. revert s. induction n as [|n IH]; intros s; [reflexivity|]. cbn [seq map]. f_equal. rewrite <- seq_shift, map_map.
    specialize (IH (S s)). replace (S (S s + 0)) with (S (S s) + 0) by lia. rewrite <- IH. apply map_ext. intros. lia.
Qed.

Lemma field_read l first last f : (1 <= first <= last)%nat -> shows l first last f -> neat f -> strip (slice l (first - 1) last) = f.
Proof.
  intros Hf (a & b & E) Hn. unfold between in E. destruct first as [|s]; [lia|]. destruct (between_slice l s (last - S s + 1)) as (k & K).
  rewrite K in E. unfold slice. replace (S s - 1) with s by lia. replace (last - s) with (last - S s + 1) by lia.
  rewrite <- (strip_right _ k), E, strip_left, strip_right. apply strip_neat, Hn.
Qed.
Definition zero_based (c : string * (nat * nat)) : column := (fst c, (fst (snd c) - 1, snd (snd c))).
Lemma line_read doc field l : (forall n f t, In (n, (f, t)) doc -> (1 <= f <= t)%nat) -> laid_out doc field l ->
  read_line (map zero_based doc) l = map (fun c => (fst c, field (fst c))) doc.
Proof.
  intros H L. unfold read_line. rewrite map_map. apply map_ext_in. intros [n [f t]] Hc. cbn [fst snd zero_based]. f_equal.
  destruct (L n f t Hc) as [S N]. apply field_read; [apply (H n f t Hc)|exact S|exact N].
Qed.
Lemma comet_columns_ok : COMET_COLUMNS = map zero_based comet_columns.
Proof. reflexivity. Qed.
Lemma mpcorb_columns_ok : MPCORB_COLUMNS = map zero_based minor_planet_columns.
Proof. reflexivity. Qed.
Lemma in_order doc : forallb (fun c => (1 <=? fst (snd c)) && (fst (snd c) <=? snd (snd c))) doc = true ->
  forall (n : string) f t, In (n, (f, t)) doc -> (1 <= f <= t)%nat.
Proof. intros H n f t Hc. rewrite forallb_forall in H. specialize (H _ Hc). cbn [fst snd] in H. apply andb_true_iff in H as [H1 H2]. apply Nat.leb_le in H1, H2. split; assumption. Qed.
Lemma slow_line field l : laid_out comet_columns field l -> read_line COMET_COLUMNS l = map (fun c => (fst c, field (fst c))) comet_columns.
Proof. intros H. rewrite comet_columns_ok. apply line_read; [apply in_order; reflexivity|exact H]. Qed.
Lemma mpcorb_line field l : laid_out minor_planet_columns field l -> read_line MPCORB_COLUMNS l = map (fun c => (fst c, field (fst c))) minor_planet_columns.
Proof. intros H. rewrite mpcorb_columns_ok. apply line_read; [apply in_order; reflexivity|exact H]. Qed.

(** * Files *)
Lemma lines_line l : forall acc r, ~ In newline l -> lines (l ++ newline :: r) acc = rev (rev l ++ acc) :: lines r [].
Proof.
  induction l as [|c l IH]; intros acc r H; cbn [app lines].
  - rewrite Ascii.eqb_refl. reflexivity.
  - destruct (Ascii.eqb_spec c newline) as [->|N]; [exfalso; apply H; left; reflexivity|].
    rewrite IH by (intros Hn; apply H; right; exact Hn). cbn [rev]. rewrite <- app_assoc. reflexivity.
Qed.
Lemma lines_file ls : (forall l, In l ls -> ~ In newline l) -> lines (concat (map (fun l => l ++ [newline]) ls)) [] = ls.
Proof.
  induction ls as [|l ls IH]; intros H; [reflexivity|]. cbn [map concat]. rewrite <- app_assoc. cbn [app].
  rewrite lines_line by (apply H; left; reflexivity). rewrite app_nil_r, rev_involutive, IH; [reflexivity|]. intros; apply H; right; assumption.
Qed.
Lemma filter_all {A} (f : A -> bool) l : (forall x, In x l -> f x = true) -> filter f l = l.
Proof. induction l as [|a l IH]; intros H; [reflexivity|]. cbn [filter]. rewrite (H a) by (left; reflexivity). rewrite IH; [reflexivity|]. intros; apply H; right; assumption. Qed.
Lemma lstrip_some s : (exists c, In c s /\ isblank c = false) -> lstrip s <> [].
Proof.
  induction s as [|a s IH]; intros (c & H & B); [destruct H|]. cbn [lstrip]. destruct (isblank a) eqn:E; [|discriminate].
  apply IH. destruct H as [->|H]; [congruence|]. exists c. tauto.
Qed.
Lemma lstrip_keeps s c : In c s -> isblank c = false -> In c (lstrip s).
Proof.
  induction s as [|a s IH]; intros H B; [destruct H|]. cbn [lstrip]. destruct (isblank a) eqn:E; [|exact H].
  destruct H as [->|H]; [congruence|apply IH; assumption].
Qed.
Lemma not_empty l : (exists c, In c l /\ ~ space c) -> empty l = false.
Proof.
  intros (c & H & N). apply not_space in N. unfold empty. destruct (strip l) eqn:E; [|reflexivity]. exfalso.
  unfold strip in E. apply (f_equal (@rev ascii)) in E. rewrite rev_involutive in E. revert E. apply lstrip_some. exists c. split; [|exact N].
  apply in_rev. rewrite rev_involutive. apply lstrip_keeps; assumption.
Qed.

(** * The regular expression *)
Fixpoint width (ps : list piece) : nat :=
  match ps with [] => 0 | Blanks n :: r => n + width r | Dots n _ :: r => n + width r | Groups :: r => width r end.
Fixpoint kept (ps : list piece) (l : text) : list text :=
  match ps with
  | [] => []
  | Blanks n :: r => kept r (skipn n l)
  | Dots n k :: r => (if k then [firstn n l] else []) ++ kept r (skipn n l)
  | Groups :: r => kept r l
  end.
Fixpoint fits (ps : list piece) (p : nat) (l : text) : Prop :=
  match ps with
  | [] => True
  | Blanks n :: r => (forall k, (p < k <= p + n)%nat -> char_at l k = blank) /\ fits r (p + n) l
  | Dots n _ :: r => fits r (p + n) l
  | Groups :: _ => False
  end.
Lemma skipn_skipn' {A} (l : list A) : forall a b, skipn b (skipn a l) = skipn (a + b) l.
Proof. induction l as [|x l IH]; intros a b; [rewrite !skipn_nil; reflexivity|]. destruct a; [reflexivity|]. cbn [skipn Nat.add]. apply IH. Qed.
Lemma match_prefix ps : forall p l rest, fits ps p l -> (p + width ps <= length l)%nat ->
  match_line (ps ++ rest) (skipn p l) =
  match match_line rest (skipn (p + width ps) l) with None => None | Some (gs, r) => Some (kept ps (skipn p l) ++ gs, r) end.
Proof.
  induction ps as [|x ps IH]; intros p l rest F H; cbn [app width kept].
  - rewrite Nat.add_0_r. destruct (match_line rest (skipn p l)) as [[gs r]|]; reflexivity.
  - destruct x as [n|n k|]; cbn [fits width] in F, H; [| |destruct F]; cbn [match_line].
    + destruct F as [F1 F2]. rewrite (proj2 (Nat.leb_le _ _)) by (rewrite skipn_length; lia).
      replace (forallb (Ascii.eqb " "%char) (firstn n (skipn p l))) with true.
      * cbn [andb]. rewrite skipn_skipn', IH by (assumption || lia). rewrite Nat.add_assoc. reflexivity.
      * symmetry. apply forallb_forall. intros c Hc. apply Ascii.eqb_eq.
        apply (In_nth _ _ blank) in Hc as (i & Hi & E). rewrite firstn_length, skipn_length in Hi.
        assert (E2 : nth i (firstn n (skipn p l)) blank = char_at l (S (p + i))).
        { unfold char_at. replace (S (p + i) - 1) with (p + i) by lia. rewrite <- nth_skipn'. clear E F1 F2 IH H. assert (Hi' : (i < n)%nat) by lia. clear Hi.
          revert i Hi'. generalize (skipn p l). induction n as [|n IHn]; intros t i Hi; [lia|]. destruct t; [destruct i; reflexivity|]. destruct i; [reflexivity|]. cbn. apply IHn. lia. }
        rewrite <- E, E2. symmetry. apply F1. lia.
    + rewrite (proj2 (Nat.leb_le _ _)) by (rewrite skipn_length; lia). rewrite skipn_skipn', IH by (assumption || lia). rewrite Nat.add_assoc.
      destruct (match_line rest _) as [[gs r]|]; [|reflexivity]. rewrite app_assoc. reflexivity.
Qed.
Lemma skip_blanks_all n s : s = [] \/ hd blank s <> blank -> skip_blanks (blanks n ++ s) = s.
Proof.
  intros H. induction n as [|n IH]; [|exact IH]. cbn [repeat app]. destruct s as [|c r]; [reflexivity|]. cbn [skip_blanks].
  destruct (Ascii.eqb_spec c " "%char) as [->|N]; [destruct H as [H|H]; [discriminate|exfalso; apply H; reflexivity]|reflexivity].
Qed.
Lemma two_blanks_split d : forall n s, no_two_blanks d -> (d = [] \/ last d blank <> blank) -> s = [] \/ hd blank s <> blank ->
  two_blanks (d ++ blanks (S (S n)) ++ s) = Some (d, s).
Proof.
  induction d as [|c d IH]; intros n s Hd Hl Hs.
  - cbn [app repeat two_blanks]. unfold blank at 1 2. rewrite !Ascii.eqb_refl. cbn [andb]. rewrite skip_blanks_all by exact Hs. reflexivity.
  - assert (IH' : two_blanks (d ++ blanks (S (S n)) ++ s) = Some (d, s)).
    { apply IH; [|destruct d; [left; reflexivity|right; destruct Hl as [Hl|Hl]; [discriminate|exact Hl]]|exact Hs].
      intros x y E. apply (Hd (c :: x) y). rewrite E. reflexivity. }
    destruct d as [|c' d].
    + cbn [app repeat two_blanks] in *. destruct Hl as [Hl|Hl]; [discriminate|]. cbn [last] in Hl.
      destruct (Ascii.eqb_spec c " "%char) as [E|_]; [exfalso; apply Hl; exact E|]. cbn [andb]. rewrite IH'. reflexivity.
    + cbn [app] in *. cbn [two_blanks]. destruct (Ascii.eqb c " "%char && Ascii.eqb c' " "%char) eqn:E.
      * apply andb_true_iff in E as [E1 E2]. apply Ascii.eqb_eq in E1, E2. subst. exfalso. apply (Hd [] d). reflexivity.
      * cbn [two_blanks] in IH'. rewrite IH'. reflexivity.
Qed.
Lemma split_none sep t : ~ In sep t -> split sep t = [t].
Proof.
  induction t as [|c t IH]; intros H; [reflexivity|]. cbn [split]. destruct (Ascii.eqb_spec c sep) as [->|N]; [exfalso; apply H; left; reflexivity|].
  rewrite IH by (intros X; apply H; right; exact X). reflexivity.
Qed.
Lemma split_app sep t r : ~ In sep t -> split sep (t ++ sep :: r) = t :: split sep r.
Proof.
  induction t as [|c t IH]; intros H; cbn [app split]; [rewrite Ascii.eqb_refl; reflexivity|].
  destruct (Ascii.eqb_spec c sep) as [->|N]; [exfalso; apply H; left; reflexivity|]. rewrite IH by (intros X; apply H; right; exact X). reflexivity.
Qed.
Lemma split_join sep gs : gs <> [] -> (forall t, In t gs -> ~ In sep t) -> split sep (join sep gs) = gs.
Proof.
  induction gs as [|t gs IH]; intros Hn H; [congruence|]. destruct gs as [|u gs]; [apply split_none, H; left; reflexivity|].
  change (join sep (t :: u :: gs)) with (t ++ sep :: join sep (u :: gs)). rewrite split_app by (apply H; left; reflexivity).
  rewrite IH; [reflexivity|discriminate|]. intros; apply H; right; assumption.
Qed.
Lemma trim_unique x y i j : x ++ blanks i = y ++ blanks j -> (x = [] \/ last x blank <> blank) -> (y = [] \/ last y blank <> blank) -> x = y.
Proof.
  assert (G : forall x i, (x = [] \/ last x blank <> blank) -> skip_blanks (rev (x ++ blanks i)) = rev x).
  { clear. intros x i H. rewrite rev_app_distr, rev_blanks. apply skip_blanks_all. destruct H as [->|H]; [left; reflexivity|].
    destruct x as [|c x] using rev_ind; [left; reflexivity|]. right. rewrite rev_app_distr. rewrite last_last in H. exact H. }
  intros E Hx Hy. rewrite <- (rev_involutive x), <- (rev_involutive y), <- (G x i Hx), <- (G y j Hy), E. reflexivity.
Qed.

(** * Lines of comets *)
Definition prefix : list piece := removelast comet_pattern.
Lemma pattern_prefix : comet_pattern = prefix ++ [Groups].
Proof. reflexivity. Qed.
Lemma between_is_slice l first last : (1 <= first <= last)%nat -> (last <= length l)%nat -> between l first last = slice l (first - 1) last.
Proof.
  intros H L. unfold between, slice. destruct first as [|s]; [lia|]. replace (S s - 1) with s by lia. replace (last - s) with (last - S s + 1) by lia.
  destruct (between_slice l s (last - S s + 1)) as (k & E). rewrite E. apply (f_equal (@length ascii)) in E.
  rewrite map_length, seq_length, app_length, firstn_length, skipn_length, repeat_length in E. replace k with 0 by lia. apply app_nil_r.
Qed.
Lemma between_app l a b c : (1 <= a <= b)%nat -> (b < c)%nat -> between l a c = between l a b ++ between l (b + 1) c.
Proof.
  intros H1 H2. unfold between. rewrite <- map_app. f_equal. replace (c - a + 1) with ((b - a + 1) + (c - (b + 1) + 1)) by lia.
  rewrite seq_app. do 2 f_equal. lia.
Qed.
Lemma length_between l a b : length (between l a b) = b - a + 1.
Proof. unfold between. rewrite map_length, seq_length. reflexivity. Qed.
Lemma last_nth {A} (l : list A) d : last l d = nth (length l - 1) l d.
Proof.
  induction l as [|a l IH]; [reflexivity|]. destruct l as [|b l]; [reflexivity|]. change (last (b :: l) d = nth (length (b :: l)) (a :: b :: l) d).
  rewrite IH. cbn [length nth]. replace (S (length l) - 1) with (length l) by lia. reflexivity.
Qed.
Lemma last_skipn {A} (l : list A) d n : (n < length l)%nat -> last (skipn n l) d = last l d.
Proof. intros H. rewrite !last_nth, nth_skipn', skipn_length. f_equal. lia. Qed.
Lemma last_app' {A} (x y : list A) d : y <> [] -> last (x ++ y) d = last y d.
Proof. intros H. destruct y as [|c y] using rev_ind; [congruence|]. rewrite app_assoc, !last_last. reflexivity. Qed.
Lemma neat_ends f : neat f -> f = [] \/ (f <> [] /\ hd blank f <> blank /\ last f blank <> blank).
Proof.
  intros [->|(m & H1 & E & H2)]; [left; reflexivity|]. right.
  assert (B : space blank) by (left; reflexivity).
  split; [rewrite E; intros X; apply app_eq_nil in X as [_ X]; discriminate|].
  split; intros X; [apply H1|apply H2]; rewrite X; exact B.
Qed.
Lemma no_field k : forallb (fun c => (k <? fst (snd c)) || (snd (snd c) <? k)) comet_columns = true ->
  forall (n : string) f t, In (n, (f, t)) comet_columns -> ~ (f <= k <= t)%nat.
Proof.
  intros H n f t Hc. rewrite forallb_forall in H. specialize (H _ Hc). cbn [fst snd] in H.
  apply orb_true_iff in H as [H|H]; apply Nat.ltb_lt in H; lia.
Qed.
Lemma gap l k : nothing_between comet_columns l -> (1 <= k)%nat ->
  forallb (fun c => (k <? fst (snd c)) || (snd (snd c) <? k)) comet_columns = true -> char_at l k = blank.
Proof. intros H K E. apply H; [exact K|]. apply no_field, E. Qed.
Lemma beyond l k : nothing_between comet_columns l -> (168 < k)%nat -> char_at l k = blank.
Proof.
  intros H K. apply H; [lia|]. intros n f t Hc.
  assert (X : forallb (fun c : string * (nat * nat) => snd (snd c) <=? 168) comet_columns = true) by reflexivity.
  rewrite forallb_forall in X. specialize (X _ Hc). apply Nat.leb_le in X. cbn [fst snd] in X. lia.
Qed.
Fixpoint kept_at (ps : list piece) (p : nat) (l : text) : list text :=
  match ps with
  | [] => []
  | Blanks n :: r => kept_at r (p + n) l
  | Dots n k :: r => (if k then [slice l p (p + n)] else []) ++ kept_at r (p + n) l
  | Groups :: r => kept_at r p l
  end.
Lemma kept_slices ps : forall p l, kept ps (skipn p l) = kept_at ps p l.
Proof.
  induction ps as [|x ps IH]; intros p l; [reflexivity|]. destruct x as [n|n k|]; cbn [kept kept_at]; rewrite ?skipn_skipn', IH; try reflexivity.
  unfold slice. replace (p + n - p) with n by lia. reflexivity.
Qed.
(** The end of the line. *)
Section Tail.
Variables (field : string -> text) (l : text).
Hypothesis LO : laid_out comet_columns field l.
Hypothesis NB : nothing_between comet_columns l.
Hypothesis JUST : char_at l 103 <> blank.
Hypothesis TWO : no_two_blanks (field "designation"%string).
Hypothesis SHORT : (length (field "designation"%string) <= 55)%nat.
Hypothesis REF : field "reference"%string <> [].
Hypothesis END : last l blank <> blank.
Hypothesis PLAIN : plain l.
Lemma long : (103 <= length l <= 168)%nat.
Proof.
  clear SHORT. split.
  - destruct (le_lt_dec 103 (length l)) as [|X]; [assumption|]. exfalso. apply JUST. unfold char_at. apply nth_overflow. lia.
  - destruct (le_lt_dec (length l) 168) as [|X]; [assumption|]. exfalso. apply END. rewrite last_nth. change (char_at l (length l) = blank). apply beyond; assumption.
Qed.
Lemma tail : exists n, skipn 102 l = field "designation"%string ++ blanks (S (S n)) ++ field "reference"%string.
Proof.
  pose proof long as LG.
  destruct (LO "designation"%string 103 158) as [(a & b & E1) N1]; [do 16 right; left; reflexivity|].
  destruct (LO "reference"%string 160 168) as [(c & e & E2) N2]; [do 17 right; left; reflexivity|].
  assert (A : a = 0).
  { destruct a as [|a]; [reflexivity|]. exfalso. apply JUST. change (char_at l 103) with (nth 0 (between l 103 158) blank). rewrite E1. reflexivity. }
  subst a. cbn [repeat app] in E1.
  assert (B : (1 <= b)%nat). { apply (f_equal (@length ascii)) in E1. rewrite length_between, app_length, repeat_length in E1. lia. }
  assert (E : between l 103 168 = (field "designation"%string ++ blanks b) ++ [blank] ++ (blanks c ++ field "reference"%string ++ blanks e)).
  { rewrite (between_app l 103 158 168) by lia. change (158 + 1) with 159. rewrite (between_app l 159 159 168) by lia. change (159 + 1) with 160. rewrite E1, E2. do 2 f_equal.
    change (between l 159 159) with [char_at l 159]. rewrite (gap l 159); [reflexivity|exact NB|lia|reflexivity]. }
  unfold between in E. destruct (between_slice l 102 (168 - 103 + 1)) as (k & K). rewrite K in E. clear K E1 E2.
  rewrite firstn_all2 in E by (rewrite skipn_length; lia).
  exists (b - 1 + c). apply (trim_unique _ _ k e).
  - rewrite E. replace (S (S (b - 1 + c))) with (b + (1 + c)) by lia. rewrite !repeat_app. cbn [repeat app]. rewrite <- !app_assoc. reflexivity.
  - right. rewrite last_skipn by lia. exact END.
  - right. rewrite !app_assoc. rewrite last_app' by exact REF. destruct (neat_ends _ N2) as [X|(_ & _ & X)]; [congruence|exact X].
Qed.
Lemma groups : match_line [Groups] (skipn 102 l) = Some ([field "designation"%string; field "reference"%string], []).
Proof.
  destruct tail as (n & ->).
  assert (N1 : neat (field "designation"%string)) by (apply (LO _ 103 158); do 16 right; left; reflexivity).
  assert (N2 : neat (field "reference"%string)) by (apply (LO _ 160 168); do 17 right; left; reflexivity).
  cbn [match_line]. rewrite two_blanks_split; [reflexivity|exact TWO| |].
  - destruct (neat_ends _ N1) as [X|(_ & _ & X)]; tauto.
  - destruct (neat_ends _ N2) as [X|(_ & X & _)]; tauto.
Qed.
Lemma prefix_fits : fits prefix 0 l.
Proof.
  cbn. repeat split; intros k Hk; try lia.
  all: assert (C : forall a b, (a < k <= b)%nat -> forallb (fun k => forallb (fun c => (k <? fst (snd c)) || (snd (snd c) <? k)) comet_columns) (seq (S a) (b - a)) = true -> char_at l k = blank)
    by (intros a b Hab F; apply gap; [exact NB|lia|]; rewrite forallb_forall in F; apply F; apply in_seq; lia).
  all: eapply C; [exact Hk|reflexivity].
Qed.
Definition raw (n : string) : text :=
  if String.eqb n "designation" then field n else if String.eqb n "reference" then field n
  else match find (fun c => String.eqb (fst c) n) COMET_COLUMNS with None => [] | Some c => slice l (fst (snd c)) (snd (snd c)) end.
Lemma matched : match_line comet_pattern l = Some (map raw orbit_columns, []).
Proof.
  pose proof long as LG. rewrite pattern_prefix. change l with (skipn 0 l) at 1. rewrite match_prefix; [|exact prefix_fits|change (width prefix) with 102; lia].
  change (0 + width prefix) with 102. rewrite groups, kept_slices. do 2 f_equal.
Qed.
Lemma in_slice (x : ascii) s a b : In x (slice s a b) -> In x s.
Proof. unfold slice. intros H. rewrite <- (firstn_skipn a s). apply in_or_app. right. rewrite <- (firstn_skipn (b - a) (skipn a s)). apply in_or_app. left. exact H. Qed.
Lemma raw_in n x : In n orbit_columns -> In x (raw n) -> In x l.
Proof.
  intros Hn Hx. unfold raw in Hx.
  assert (T : forall y, In y (field "designation"%string ++ field "reference"%string) -> In y l).
  { intros y Hy. destruct tail as (k & E). rewrite <- (firstn_skipn 102 l). apply in_or_app. right. rewrite E. rewrite in_app_iff in *. rewrite in_app_iff. tauto. }
  destruct (String.eqb_spec n "designation") as [->|_]; [apply T, in_or_app; left; exact Hx|].
  destruct (String.eqb_spec n "reference") as [->|_]; [apply T, in_or_app; right; exact Hx|].
  match type of Hx with In _ (match ?f with _ => _ end) => destruct f as [c|] end; [apply in_slice in Hx; exact Hx|destruct Hx].
Qed.
Lemma fast_row : load_comet l = map (fun n => (n, raw n)) orbit_columns.
Proof.
  unfold load_comet, sub_line. rewrite matched, app_nil_r. rewrite split_join; [reflexivity|discriminate|].
  intros t Ht Hs. apply in_map_iff in Ht as (n & <- & Hn). apply raw_in in Hs; [|exact Hn]. apply (PLAIN _ Hs). right; right; left; reflexivity.
Qed.
Lemma raw_field n : In n orbit_columns -> exists a b, raw n = blanks a ++ field n ++ blanks b.
Proof.
  pose proof long as LG. intros Hn. unfold raw.
  assert (G : forall f t, In (n, (f, t)) comet_columns -> (1 <= f <= t)%nat -> (t <= 102)%nat -> exists a b, slice l (f - 1) t = blanks a ++ field n ++ blanks b).
  { intros f t Hc Hf Ht. destruct (LO _ _ _ Hc) as [(a & b & E) _]. exists a, b. rewrite <- between_is_slice by lia. exact E. }
  assert (D : exists a b, field n = blanks a ++ field n ++ blanks b) by (exists 0, 0; symmetry; apply app_nil_r).
  cbn [In orbit_columns] in Hn.
  repeat (destruct Hn as [<-|Hn]); [..|destruct Hn]; cbn [String.eqb Ascii.eqb Bool.eqb find COMET_COLUMNS fst snd]; try exact D.
  all: match goal with |- exists a b, slice l ?s ?t = _ => apply (G (s + 1) t); [unfold comet_columns; cbn [In Nat.add]; tauto|lia|lia] end.
Qed.
End Tail.

(** * Rows of files *)
Lemma file_rows {A} (f : text -> A) ls : (forall l, In l ls -> ~ In newline l /\ exists c, In c l /\ ~ space c) ->
  map f (filter (fun l => negb (empty l)) (lines (concat (map (fun l => l ++ [newline]) ls)) [])) = map f ls.
Proof.
  intros H. rewrite lines_file by (intros l Hl; apply H, Hl). rewrite filter_all; [reflexivity|].
  intros l Hl. rewrite not_empty by (apply H, Hl). reflexivity.
Qed.
Definition file_of (records : list ((string -> text) * text)) : text := concat (map (fun r => snd r ++ [newline]) records).
Lemma fwf_rows doc cols records :
  (forall field l, laid_out doc field l -> read_line cols l = map (fun c => (fst c, field (fst c))) doc) ->
  (forall field l, In (field, l) records -> laid_out doc field l /\ ~ In newline l /\ exists c, In c l /\ ~ space c) ->
  read_fwf cols (file_of records) = map (fun r => map (fun c => (fst c, fst r (fst c))) doc) records.
Proof.
  intros R H. unfold read_fwf, file_of. rewrite <- (map_map snd (fun l => l ++ [newline])). rewrite file_rows.
  - rewrite map_map. apply map_ext_in. intros [fd l] Hr. apply R, (H fd l Hr).
  - intros l Hl. apply in_map_iff in Hl as ([fd l'] & E & Hr). cbn in E. subst l'. apply (H fd l Hr).
Qed.
Lemma fast_rows records :
  (forall field l, In (field, l) records ->
     laid_out comet_columns field l /\ nothing_between comet_columns l /\ char_at l 103 <> blank /\
     no_two_blanks (field "designation"%string) /\ (length (field "designation"%string) <= 55)%nat /\
     field "reference"%string <> [] /\ last l blank <> blank /\ plain l) ->
  Forall2 (fun row r => exists written, row = map (fun n => (n, written n)) orbit_columns /\
     forall n, In n orbit_columns -> (exists a b, written n = blanks a ++ fst r n ++ blanks b) /\
       (n = "designation"%string \/ n = "reference"%string -> written n = fst r n))
    (load_comets (file_of records)) records.
Proof.
  intros H. unfold load_comets, file_of. rewrite <- (map_map snd (fun l => l ++ [newline])). rewrite file_rows.
  - rewrite map_map. induction records as [|[fd l] rs IH]; constructor.
    + destruct (H fd l (or_introl eq_refl)) as (H1 & H2 & H3 & H4 & H5 & H6 & H7 & H8). exists (raw fd l). cbn [fst snd]. split; [apply fast_row; assumption|].
      intros n Hn. split; [apply raw_field; assumption|]. intros [-> | ->]; reflexivity.
    + apply IH. intros; apply H; right; assumption.
  - intros l Hl. apply in_map_iff in Hl as ([fd l'] & E & Hr). cbn in E. subst l'.
    destruct (H fd l Hr) as (H1 & _ & _ & _ & _ & H6 & _ & H8). split; [intros X; apply (H8 _ X); left; reflexivity|].
    destruct (H1 "reference"%string 160 168) as [(a & b & E) N]; [do 17 right; left; reflexivity|]. destruct N as [N|(m & N & N2 & N3)]; [congruence|].
    exists (last (fd "reference"%string) blank). split; [|exact N3].
    assert (I : In (last (fd "reference"%string) blank) (between l 160 168)).
    { rewrite E, N2. apply in_or_app. right. apply in_or_app. left. apply in_or_app. right. rewrite last_last. left. reflexivity. }
    unfold between in I. apply in_map_iff in I as (k & I & _). rewrite <- I. unfold char_at in *. destruct (le_lt_dec (length l) (k - 1)) as [X|X]; [|apply nth_In, X].
    exfalso. apply N3. rewrite <- I, nth_overflow by exact X. left. reflexivity.
Qed.
