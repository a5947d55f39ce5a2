From Coq Require Import List Ascii String ZArith QArith Bool Lia.
From Coq Require Import List.
From Verif Require Import Download_Model Download_Proofs Files_Model Files_Spec Files_Proofs Pool_Model Pool_Spec.
Import ListNotations.
Open Scope list_scope.

Lemma in_is c l : In c l -> is_in c l = true.
Proof. intros I. apply existsb_exists. exists c. split; [exact I|apply Ascii.eqb_refl]. Qed.
Ltac each := let c := fresh "c" in intros c; revert c; apply Forall_forall; repeat (apply Forall_cons; [try reflexivity; repeat split|]); try apply Forall_nil.
Lemma blank_in c : In c blanks <-> is_blank c = true.
Proof. split; [apply in_is|apply letters_in]. Qed.
(** * One token *)
Lemma number_head c : In c (digits ++ chars "-+.@") -> is_alpha c = false /\ Ascii.eqb c "=" = false /\ Ascii.eqb c "(" || Ascii.eqb c ")" = false /\ Ascii.eqb c "'" = false /\ is_in c (chars "), ") = false.
Proof. revert c. apply Forall_forall. unfold digits. cbn [chars list_ascii_of_string app]. repeat (apply Forall_cons; [repeat split|]). apply Forall_nil. Qed.
Lemma not_word c : ~ In c (letters ++ digits ++ chars "_") -> is_word c = false.
Proof.
  intros H. destruct (is_word c) eqn:E; [|reflexivity]. exfalso. apply H. clear H. revert c E.
  assert (F : forallb (fun n => negb (is_word (ascii_of_nat n)) || is_in (ascii_of_nat n) (letters ++ digits ++ chars "_")) (seq 0 256) = true) by (vm_compute; reflexivity).
  intros c E. rewrite forallb_forall in F. specialize (F (nat_of_ascii c)). rewrite ascii_nat_embedding in F. rewrite E in F. apply letters_in. apply F. apply in_seq. pose proof (nat_ascii_bounded c). lia.
Qed.
Lemma token_first k t rest : token k t -> ends_before k rest -> token_here (t ++ rest) = Some (t, rest).
Proof.
  intros H E. destruct H as [c d w A W|t A|w W|c w A W P].
  - cbn [app]. unfold token_here. rewrite (alpha_letter c A).
    change (d :: w ++ rest) with ((d :: w) ++ rest). rewrite span_app; [reflexivity|apply forallb_forall; intros x Hx; apply word_char, W, Hx|].
    destruct rest as [|x rest]; [reflexivity|]. cbn in E. rewrite not_word by exact E. reflexivity.
  - cbn in A. destruct A as [<-|[<-|[<-|[<-|[]]]]]; reflexivity.
  - cbn [app chars list_ascii_of_string]. rewrite <- app_assoc. unfold token_here. change (is_alpha "'") with false. cbn match.
    change (Ascii.eqb "'" "=") with false. change (Ascii.eqb "'" "+") with false. change (Ascii.eqb "'" "(" || Ascii.eqb "'" ")") with false. change (Ascii.eqb "'" "'") with true.
    cbn [andb]. cbn match. cbn [app]. rewrite span_app; [| |reflexivity].
    + cbn match. reflexivity.
    + apply forallb_forall. intros x Hx. destruct (Ascii.eqb x "'") eqn:Q; [|reflexivity]. apply Ascii.eqb_eq in Q. subst x. exfalso. apply (W _ Hx). left. reflexivity.
  - destruct (number_head c A) as (N1 & N2 & N4 & N5 & N6). cbn [app]. unfold token_here. rewrite N1, N2, N4, N5.
    assert (N3 : Ascii.eqb c "+" && starts_with (chars "=") (w ++ rest) = false).
    { destruct (Ascii.eqb c "+") eqn:Q; [|reflexivity]. apply Ascii.eqb_eq in Q. specialize (P Q). cbn [andb]. destruct w as [|x w]; cbn in P |- *.
      - destruct rest as [|y rest]; [reflexivity|]. cbn in E. destruct E as [<-|[<-|[<-|[]]]]; reflexivity.
      - destruct x as [[] [] [] [] [] [] [] []]; try reflexivity. exfalso. apply P. reflexivity. }
    rewrite N3. change (c :: w ++ rest) with ((c :: w) ++ rest). rewrite span_app; [reflexivity| |].
    + cbn [forallb]. rewrite N6. apply forallb_forall. intros x Hx. rewrite is_in_false; [reflexivity|]. intros I. apply (W x Hx). cbn in I. apply in_or_app. cbn. destruct I as [<-|[<-|[<-|[]]]]; auto 10.
    + destruct rest as [|x rest]; [reflexivity|]. cbn in E. rewrite in_is by exact E. reflexivity.
Qed.
Lemma token_nonempty k t : token k t -> exists c r, t = c :: r.
Proof. intros []; eauto. cbn in H. destruct H as [<-|[<-|[<-|[<-|[]]]]]; cbn; eauto. cbn. eauto. Qed.
Lemma findall_more : forall fuel s, (List.length s <= fuel)%nat -> findall fuel s = findall (List.length s) s.
Proof.
  assert (G : forall n fuel s, (List.length s <= n)%nat -> (List.length s <= fuel)%nat -> findall fuel s = findall (List.length s) s).
  { induction n as [|n IH]; intros fuel s Hn Hf.
    - destruct s; [destruct fuel; reflexivity|cbn in Hn; lia].
    - destruct s as [|c s]; [destruct fuel; reflexivity|]. cbn [List.length] in *. destruct fuel as [|fuel]; [lia|]. cbn [findall].
      destruct (token_here (c :: s)) as [[t rest]|] eqn:T.
      + assert (L : (List.length rest <= List.length s)%nat).
        { revert T. unfold token_here. assert (Sp : forall p x a b, span p x = (a, b) -> x = a ++ b).
          { intros p. unfold span. induction x as [|y x IHx]; intros a b; cbn; [intros [= <- <-]; reflexivity|]. destruct (negb (p y)); [intros [= <- <-]; reflexivity|]. destruct (break _ x) as [a' b'] eqn:B. intros [= <- <-]. cbn. rewrite (IHx a' b' eq_refl). reflexivity. }
          destruct (is_alpha c).
          - destruct (span is_word s) as [w r] eqn:Q. apply Sp in Q. destruct w as [|x w].
            + destruct (Ascii.eqb c "="); [intros [= <- <-]; lia|]. destruct (Ascii.eqb c "+" && _); [intros [= <- <-]; destruct s; cbn [skipn List.length]; lia|]. destruct (_ || _); [intros [= <- <-]; lia|].
              destruct (Ascii.eqb c "'").
              * destruct (span _ s) as [q [|z r']] eqn:Q2; [|apply Sp in Q2; intros [= <- <-]; apply (f_equal (@List.length _)) in Q2; rewrite app_length in Q2; cbn in Q2; lia].
                destruct (span _ (c :: s)) as [[|z w] r2] eqn:Q3; [discriminate|]. apply Sp in Q3. intros [= <- <-]. apply (f_equal (@List.length _)) in Q3. rewrite app_length in Q3. cbn in Q3. lia.
              * destruct (span _ (c :: s)) as [[|z w] r2] eqn:Q3; [discriminate|]. apply Sp in Q3. intros [= <- <-]. apply (f_equal (@List.length _)) in Q3. rewrite app_length in Q3. cbn in Q3. lia.
            + intros [= <- <-]. subst s. cbn. rewrite app_length. lia.
          - destruct (Ascii.eqb c "="); [intros [= <- <-]; lia|]. destruct (Ascii.eqb c "+" && _); [intros [= <- <-]; destruct s; cbn [skipn List.length]; lia|]. destruct (_ || _); [intros [= <- <-]; lia|].
              destruct (Ascii.eqb c "'").
              * destruct (span _ s) as [q [|z r']] eqn:Q2; [|apply Sp in Q2; intros [= <- <-]; apply (f_equal (@List.length _)) in Q2; rewrite app_length in Q2; cbn in Q2; lia].
                destruct (span _ (c :: s)) as [[|z w] r2] eqn:Q3; [discriminate|]. apply Sp in Q3. intros [= <- <-]. apply (f_equal (@List.length _)) in Q3. rewrite app_length in Q3. cbn in Q3. lia.
              * destruct (span _ (c :: s)) as [[|z w] r2] eqn:Q3; [discriminate|]. apply Sp in Q3. intros [= <- <-]. apply (f_equal (@List.length _)) in Q3. rewrite app_length in Q3. cbn in Q3. lia. }
        f_equal. transitivity (findall (List.length rest) rest); [apply IH; lia|symmetry; apply IH; lia].
      + apply IH; lia. }
  intros fuel s H. apply (G (List.length s)); [lia|exact H].
Qed.
Lemma skip_separators s rest : only (chars " ,") s -> tokens_of (s ++ rest) = tokens_of rest.
Proof.
  induction s as [|c s IH]; intros H; [reflexivity|]. rewrite <- IH by (intros x Hx; apply H; right; exact Hx). unfold tokens_of. cbn [app List.length findall].
  assert (token_here (c :: s ++ rest) = None) as ->; [|reflexivity]. destruct (H c (or_introl eq_refl)) as [<-|[<-|[]]]; reflexivity.
Qed.
Lemma written_tokens ts line : written ts line -> tokens_of line = ts.
Proof.
  intros W. induction W as [s H|s k t ts rest H T E W IH].
  - rewrite <- (app_nil_r s), skip_separators by assumption. reflexivity.
  - rewrite skip_separators by assumption. destruct (token_nonempty k t T) as (c & r & ->). unfold tokens_of. cbn [app List.length findall].
    change (c :: r ++ rest) with ((c :: r) ++ rest). rewrite (token_first k _ _ T E). f_equal. rewrite findall_more by (rewrite app_length; lia). exact IH.
Qed.
(** * Lines *)
Lemma lstrip_blanks a s : only blanks a -> lstrip (a ++ s) = lstrip s.
Proof. induction a as [|c a IH]; intros H; [reflexivity|]. cbn [app lstrip]. rewrite (proj1 (blank_in c)) by (apply H; left; reflexivity). apply IH. intros x Hx. apply H. right. exact Hx. Qed.
Lemma lstrip_tight m : ~ In (hd "x"%char m) blanks -> lstrip m = m.
Proof. destruct m as [|c m]; intros H; [reflexivity|]. cbn [lstrip]. destruct (is_blank c) eqn:E; [|reflexivity]. exfalso. apply H. apply blank_in. exact E. Qed.
Lemma hd_rev (m : name) d : hd d (rev m) = last m d.
Proof. induction m as [|c m IH] using rev_ind; [reflexivity|]. rewrite rev_app_distr, last_last. reflexivity. Qed.
Lemma only_rev l s : only l s -> only l (rev s).
Proof. intros H c Hc. apply H. rewrite in_rev. exact Hc. Qed.
Lemma strip_around m line : tight m -> around m line -> strip line = m.
Proof.
  intros [T1 T2] (a & b & A & B & ->). unfold strip. rewrite lstrip_blanks by assumption.
  destruct m as [|c m].
  - cbn [app]. rewrite <- (app_nil_r b), lstrip_blanks by assumption. reflexivity.
  - rewrite (lstrip_tight ((c :: m) ++ b)) by exact T1. rewrite rev_app_distr, lstrip_blanks by (apply only_rev; assumption).
    rewrite lstrip_tight by (rewrite hd_rev; exact T2). apply rev_involutive.
Qed.
Lemma lstrip_split s : exists a, only blanks a /\ s = a ++ lstrip s.
Proof.
  induction s as [|c s (a & A & E)]; [exists []; split; [intros x []|reflexivity]|]. cbn [lstrip]. destruct (is_blank c) eqn:B.
  - exists (c :: a). split; [|cbn; f_equal; exact E]. intros x [<-|Hx]; [apply blank_in; exact B|apply A; exact Hx].
  - exists []. split; [intros x []|reflexivity].
Qed.
Lemma strip_split line : around (strip line) line.
Proof.
  destruct (lstrip_split line) as (a & A & E). destruct (lstrip_split (rev (lstrip line))) as (b & B & F). exists a, (rev b). split; [exact A|]. split; [apply only_rev; exact B|].
  unfold strip. rewrite <- rev_app_distr, <- F, rev_involutive. exact E.
Qed.
Lemma starts_with_app p s : starts_with p (p ++ s) = true.
Proof. induction p as [|c p IH]; [destruct s; reflexivity|]. cbn. rewrite Ascii.eqb_refl. exact IH. Qed.
Lemma contains_app a p s : contains p (a ++ p ++ s) = true.
Proof.
  induction a as [|c a IH]; [|cbn [app contains]; rewrite IH; apply orb_true_r]. cbn [app]. destruct (p ++ s) as [|c r] eqn:E.
  - apply app_eq_nil in E as [-> ->]. reflexivity.
  - cbn [contains]. rewrite <- E, starts_with_app. reflexivity.
Qed.
Lemma data_tight : tight begindata /\ tight begintext.
Proof. unfold tight. cbn. split; split; intros H; repeat (destruct H as [H|H]; [discriminate|]); exact H. Qed.
Lemma comment_skipped line rest : comment line -> parse_tokens false (line :: rest) = parse_tokens false rest.
Proof.
  intros C. cbn [parse_tokens]. destruct (contains begindata line); [|reflexivity]. cbn [negb]. destruct (name_eqb (strip line) begindata) eqn:E; [|reflexivity].
  exfalso. apply C. apply name_eqb_eq in E. pose proof (strip_split line) as S. rewrite E in S. exact S.
Qed.
Lemma comments_skipped cs rest : Forall comment cs -> parse_tokens false (cs ++ rest) = parse_tokens false rest.
Proof. induction 1 as [|c cs H _ IH]; [reflexivity|]. cbn [app]. rewrite comment_skipped by assumption. exact IH. Qed.
Lemma start_found start rest : around begindata start -> parse_tokens false (start :: rest) = parse_tokens true rest.
Proof.
  intros A. cbn [parse_tokens]. rewrite (strip_around _ _ (proj1 data_tight) A). destruct A as (a & b & _ & _ & ->). rewrite contains_app. reflexivity.
Qed.
Lemma stop_found stop rest : around begintext stop -> parse_tokens true (stop :: rest) = parse_tokens false rest.
Proof. intros A. cbn [parse_tokens]. rewrite (strip_around _ _ (proj2 data_tight) A). reflexivity. Qed.
Lemma written_head ts m : written ts m -> hd "x"%char m <> "\"%char.
Proof.
  intros W. destruct W as [s H|s k t ts rest H T _ _].
  - destruct s as [|c s]; [discriminate|]. destruct (H c (or_introl eq_refl)) as [<-|[<-|[]]]; discriminate.
  - destruct s as [|c s]; [|destruct (H c (or_introl eq_refl)) as [<-|[<-|[]]]; discriminate]. cbn [app]. destruct T as [c d w A _|t A|w _|c w A _ _]; cbn.
    + intros ->. revert A. apply (out_all ["\"%char]); [reflexivity|left; reflexivity].
    + destruct A as [<-|[<-|[<-|[<-|[]]]]]; discriminate.
    + discriminate.
    + intros ->. revert A. apply (out_all ["\"%char]); [reflexivity|left; reflexivity].
Qed.
Lemma data_read tss ds rest : Forall2 data_line tss ds -> parse_tokens true (ds ++ rest) = List.concat tss ++ parse_tokens true rest.
Proof.
  induction 1 as [|ts d tss ds (m & T & W & A) _ IH]; [reflexivity|]. cbn [app parse_tokens List.concat]. rewrite (strip_around _ _ T A). destruct (name_eqb m begintext) eqn:E.
  - apply name_eqb_eq in E. subst m. exfalso. apply (written_head _ _ W). reflexivity.
  - rewrite (written_tokens _ _ W), IH, app_assoc. reflexivity.
Qed.
Lemma document_tokens ts lines : document ts lines -> parse_tokens false lines = ts.
Proof.
  induction 1 as [cs C|cs start ds tss C S D|cs start ds tss stop ts lines C S D E W IH].
  - rewrite <- (app_nil_r cs), comments_skipped by assumption. reflexivity.
  - rewrite comments_skipped, start_found by assumption. rewrite <- (app_nil_r ds), (data_read tss) by assumption. cbn. apply app_nil_r.
  - rewrite comments_skipped, start_found by assumption. rewrite (data_read tss) by assumption. rewrite stop_found by assumption. rewrite IH. reflexivity.
Qed.
(** * Files *)
Lemma lines_one l : forall acc rest, none_of [line_feed] l -> lines_from acc (l ++ line_feed :: rest) = (rev acc ++ l ++ [line_feed]) :: lines_from [] rest.
Proof.
  induction l as [|c l IH]; intros acc rest H; [reflexivity|]. cbn [app lines_from]. destruct (Ascii.eqb c "010") eqn:E.
  - apply Ascii.eqb_eq in E. exfalso. apply (H c (or_introl eq_refl)). left. symmetry. exact E.
  - rewrite IH by (intros x Hx; apply H; right; exact Hx). cbn [rev]. rewrite <- app_assoc. reflexivity.
Qed.
Lemma lines_all lines : Forall whole_line lines -> lines_from [] (List.concat lines) = lines.
Proof. induction 1 as [|l lines (m & M & ->) _ IH]; [reflexivity|]. cbn [List.concat]. rewrite <- app_assoc. cbn [app]. rewrite (lines_one m [] _ M), IH. reflexivity. Qed.
Lemma blank_comment b : only blanks b -> comment b.
Proof.
  intros B (x & y & _ & _ & E). assert (In "\"%char b) as I by (rewrite E; apply in_or_app; right; apply in_or_app; left; left; reflexivity).
  specialize (B _ I). cbn in B. repeat (destruct B as [B|B]; [discriminate|]). exact B.
Qed.
Lemma read_document m b ts lines vars : In m magic -> only blanks b -> none_of [line_feed] b -> Forall whole_line lines -> document ts lines ->
  read_text (m ++ b ++ [line_feed] ++ List.concat lines) vars = load_lines lines vars.
Proof.
  intros M B N W D. unfold read_text.
  assert (G : forall x, only blanks x -> none_of [line_feed] x -> load_lines (lines_from [] (x ++ line_feed :: List.concat lines)) vars = load_lines lines vars).
  { intros x X NX. rewrite (lines_one x [] _ NX), lines_all by assumption. unfold load_lines. cbn [rev app]. rewrite comment_skipped; [reflexivity|]. apply blank_comment. intros c Hc. apply in_app_or in Hc as [Hc|[<-|[]]]; [apply X; exact Hc|]. right. right. left. reflexivity. }
  destruct M as [<-|[<-|[]]].
  - destruct b as [|c b].
    + cbn [app chars list_ascii_of_string firstn skipn existsb magic starts_with]. rewrite lines_all by assumption. reflexivity.
    + transitivity (load_lines (lines_from [] (b ++ line_feed :: List.concat lines)) vars); [reflexivity|]. apply G; [intros x Hx; apply B; right; exact Hx|intros x Hx; apply N; right; exact Hx].
  - transitivity (load_lines (lines_from [] (b ++ line_feed :: List.concat lines)) vars); [reflexivity|]. apply G; assumption.
Qed.
Lemma read_refused file vars : (forall m r, In m magic -> file <> m ++ r) -> read_text file vars = None.
Proof.
  intros H. unfold read_text. destruct (existsb _ magic) eqn:E; [|reflexivity]. exfalso. apply existsb_exists in E as (m & I & S).
  assert (P : forall p s, starts_with p s = true -> exists r, s = p ++ r).
  { induction p as [|c p IH]; intros s Hs; [exists s; reflexivity|]. destruct s as [|d s]; [discriminate|]. cbn in Hs. apply andb_prop in Hs as [H1 H2]. apply Ascii.eqb_eq in H1. subst d. destruct (IH s H2) as (r & ->). exists r. reflexivity. }
  destruct (P _ _ S) as (r & F). apply (H m (r ++ skipn 7 file) I). rewrite app_assoc, <- F. symmetry. apply firstn_skipn.
Qed.
(** * Values *)
Lemma break_app p a c r : forallb (fun x => negb (p x)) a = true -> p c = true -> break p (a ++ c :: r) = (a, c :: r).
Proof. induction a as [|x a IH]; cbn; intros H P; [rewrite P; reflexivity|]. apply andb_prop in H as [H1 H2]. apply negb_true_iff in H1. rewrite H1, IH by assumption. reflexivity. Qed.
Lemma break_none p a : forallb (fun x => negb (p x)) a = true -> break p a = (a, []).
Proof. induction a as [|x a IH]; cbn; intros H; [reflexivity|]. apply andb_prop in H as [H1 H2]. apply negb_true_iff in H1. rewrite H1, IH by assumption. reflexivity. Qed.
Lemma digit_facts c : In c digits -> is_digit c = true /\ digit c = digit_value c /\ Ascii.eqb c "e" || Ascii.eqb c "E" = false /\ Ascii.eqb "." c = false /\ Ascii.eqb c "D" = false /\ Ascii.eqb c "-" = false /\ Ascii.eqb c "+" = false /\ Ascii.eqb "'" c = false /\ Ascii.eqb "@" c = false.
Proof. revert c. apply Forall_forall. unfold digits. cbn [chars list_ascii_of_string]. repeat (apply Forall_cons; [vm_compute; repeat split|]). apply Forall_nil. Qed.
Lemma digits_all p s : only digits s -> (forall c, In c digits -> p c = true) -> forallb p s = true.
Proof. intros H P. apply forallb_forall. intros c Hc. apply P, H, Hc. Qed.
Lemma int_number s : only digits s -> int_of s = number_of (rev s).
Proof.
  induction s as [|c s IH] using rev_ind; intros H; [reflexivity|]. unfold int_of. rewrite fold_left_app. fold (int_of s). rewrite rev_app_distr. cbn [rev app number_of fold_left].
  rewrite IH by (intros x Hx; apply H, in_or_app; left; exact Hx). destruct (digit_facts c) as (_ & -> & _); [apply H, in_or_app; right; left; reflexivity|]. lia.
Qed.
Lemma isdigit_numeral s : numeral s -> isdigit s = true.
Proof. intros [N D]. destruct s; [congruence|]. apply digits_all; [exact D|]. intros x Hx. apply (digit_facts x Hx). Qed.
Lemma replace_digits s : only digits s -> replace_D s = s.
Proof. intros H. unfold replace_D. rewrite <- (map_id s) at 2. apply map_ext_in. intros c Hc. destruct (digit_facts c (H c Hc)) as (_ & _ & _ & _ & -> & _). reflexivity. Qed.
Lemma replace_app a b : replace_D (a ++ b) = replace_D a ++ replace_D b.
Proof. apply map_app. Qed.
Lemma signed_text s (r : name) : (forall c, In c (firstn 1 r) -> Ascii.eqb c "-" = false /\ Ascii.eqb c "+" = false) -> signed (sign_text s ++ r) = (match s with Minus => true | _ => false end, r).
Proof. intros H. destruct s; try reflexivity. cbn [sign_text app]. destruct r as [|c r]; [reflexivity|]. cbn. destruct (H c (or_introl eq_refl)) as [-> ->]. reflexivity. Qed.
Lemma exponent_text c s n : numeral n -> exponent_of (c :: sign_text s ++ n) = Some (sign_value s * number_of (rev n))%Z.
Proof.
  intros N. cbn [exponent_of]. rewrite signed_text.
  - rewrite isdigit_numeral, int_number by (try exact N; apply N). destruct s; f_equal; cbn [sign_value]; lia.
  - intros x Hx. destruct n as [|d n]; [destruct Hx|]. destruct Hx as [<-|[]]. destruct N as [_ N]. destruct (digit_facts d (N d (or_introl eq_refl))) as (_ & _ & _ & _ & _ & -> & -> & _). split; reflexivity.
Qed.
Lemma replace_sign s : replace_D (sign_text s) = sign_text s.
Proof. destruct s; reflexivity. Qed.
Lemma only_app l a b : only l (a ++ b) <-> only l a /\ only l b.
Proof. split; [intros H; split; intros c Hc; apply H, in_or_app; auto|intros [A B] c Hc; apply in_app_or in Hc as [Hc|Hc]; auto]. Qed.
Lemma float_text d : decimal_ok d -> exists q, float_of (replace_D (decimal_text d)) = Some q /\ (q == decimal_value d)%Q.
Proof.
  destruct d as [s w f p]. unfold decimal_ok, decimal_text, decimal_value, fraction_digits. cbn [d_sign d_whole d_fraction d_power]. set (fd := match f with Some f => f | None => [] end).
  intros [[NE D] P]. apply only_app in D as [Dw Df].
  set (point := match f with Some f => chars "." ++ f | None => [] end).
  set (ex := match p with Some (c, _, _) => Some (if Ascii.eqb c "D" then "E"%char else c) | None => None end).
  set (tail := match p with Some (c, s, n) => (if Ascii.eqb c "D" then "E"%char else c) :: sign_text s ++ n | None => [] end).
  assert (Hpoint : replace_D point = point).
  { unfold point, fd in *. destruct f as [f|]; [|reflexivity]. rewrite replace_app, (replace_digits f) by exact Df. reflexivity. }
  assert (Htail : replace_D (match p with Some (c, s, n) => c :: sign_text s ++ n | None => [] end) = tail).
  { unfold tail. destruct p as [[[c t] n]|]; [|reflexivity]. destruct P as [_ [_ P]]. change (c :: sign_text t ++ n) with ([c] ++ sign_text t ++ n). rewrite !replace_app, replace_sign, (replace_digits n) by exact P. reflexivity. }
  match goal with |- context [replace_D ?x] => assert (X : replace_D x = sign_text s ++ w ++ point ++ tail) by (rewrite !replace_app; f_equal; [apply replace_sign|f_equal; [apply replace_digits; exact Dw|f_equal; [exact Hpoint|exact Htail]]]); rewrite X; clear X end.
  unfold float_of. rewrite signed_text.
  2:{ intros c Hc. destruct w as [|x w].
      - unfold point in Hc. cbn [app] in Hc. destruct f as [f|]; [|exfalso; apply NE; reflexivity]. destruct Hc as [<-|[]]. split; reflexivity.
      - destruct Hc as [<-|[]]. destruct (digit_facts x (Dw x (or_introl eq_refl))) as (_ & _ & _ & _ & _ & -> & -> & _). split; reflexivity. }
  assert (M : forallb (fun x => negb (Ascii.eqb x "e" || Ascii.eqb x "E")) (w ++ point) = true).
  { rewrite forallb_app. apply andb_true_intro. split.
    - apply digits_all; [exact Dw|]. intros c Hc. destruct (digit_facts c Hc) as (_ & _ & -> & _). reflexivity.
    - unfold point, fd in *. destruct f as [f|]; [|reflexivity]. cbn [chars list_ascii_of_string app forallb]. apply digits_all; [exact Df|]. intros c Hc. destruct (digit_facts c Hc) as (_ & _ & -> & _). reflexivity. }
  assert (B1 : break (fun c => Ascii.eqb c "e" || Ascii.eqb c "E") (w ++ point ++ tail) = (w ++ point, tail)).
  { rewrite app_assoc. unfold tail. destruct p as [[[c t] n]|]; [|rewrite app_nil_r; apply break_none; exact M]. apply break_app; [exact M|]. destruct P as [P _]. cbn in P. destruct P as [<-|[<-|[<-|[]]]]; reflexivity. }
  assert (B2 : break (Ascii.eqb ".") (w ++ point) = (w, point)).
  { assert (W : forallb (fun x => negb (Ascii.eqb "." x)) w = true) by (apply digits_all; [exact Dw|]; intros c Hc; destruct (digit_facts c Hc) as (_ & _ & _ & -> & _); reflexivity).
    unfold point. destruct f as [f|]; [apply break_app; [exact W|reflexivity]|rewrite app_nil_r; apply break_none; exact W]. }
  rewrite B1, B2.
  assert (F : match point with [] => [] | _ :: f => f end = fd) by (unfold point, fd; destruct f; reflexivity). rewrite F.
  rewrite isdigit_numeral by (split; [exact NE|apply only_app; split; assumption]).
  assert (E : exponent_of tail = Some (match p with Some (_, s, n) => sign_value s * number_of (rev n) | None => 0 end)%Z).
  { unfold tail. destruct p as [[[c t] n]|]; [|reflexivity]. apply exponent_text. apply P. }
  rewrite E. eexists. split; [reflexivity|]. rewrite int_number by (apply only_app; split; assumption). unfold power_of_ten.
  destruct s; cbn [sign_value]; rewrite ?Z.mul_1_l; try reflexivity. set (n := number_of _). replace (-1 * n)%Z with (- n)%Z by lia. rewrite inject_Z_opp. ring.
Qed.
Lemma evaluate_means t v : means t v -> exists v', evaluate t = Some v' /\ same_literal v v'.
Proof.
  intros [w H|d H P|d q H P E].
  - exists (Text w). split; [|reflexivity]. unfold evaluate. cbn [chars list_ascii_of_string app starts_with]. rewrite Ascii.eqb_refl. cbn [andb tl]. rewrite removelast_last. reflexivity.
  - destruct d as [s w f p]. destruct P as (P1 & P2 & P3). cbn in P1, P2, P3. subst s f p. destruct H as [[N D] _]. unfold fraction_digits in N, D. cbn in N, D. rewrite app_nil_r in N, D.
    unfold decimal_text. cbn [d_sign d_whole d_fraction d_power sign_text app]. rewrite !app_nil_r. exists (Int (int_of w)). split; [|cbn; symmetry; apply int_number; exact D].
    unfold evaluate. destruct w as [|c w]; [congruence|]. cbn [chars list_ascii_of_string starts_with]. destruct (digit_facts c (D c (or_introl eq_refl))) as (_ & _ & _ & _ & _ & _ & _ & -> & _). cbn [andb].
    rewrite isdigit_numeral by (split; assumption). reflexivity.
  - destruct (float_text d H) as (r & R & Rv). exists (Float r). split; [|cbn; rewrite E, Rv; reflexivity]. unfold evaluate.
    assert (Q1 : starts_with (chars "'") (decimal_text d) = false /\ starts_with (chars "@") (decimal_text d) = false /\ isdigit (decimal_text d) = false).
    { destruct d as [s w f p]. destruct H as [[N D] Hp]. unfold decimal_text, plain, fraction_digits in *. cbn [d_sign d_whole d_fraction d_power] in *. apply only_app in D as [Dw Df].
      assert (ND : forall (a : name) c r, is_digit c = false -> isdigit (a ++ c :: r) = false).
      { intros a c r' Hc. unfold isdigit. destruct (a ++ c :: r') eqn:X; [reflexivity|]. rewrite <- X, forallb_app. cbn [forallb]. rewrite Hc. apply andb_false_r. }
      destruct s; [|cbn; repeat split..]. cbn [sign_text app].
      assert (G : starts_with (chars "'") (w ++ match f with Some f => chars "." ++ f | None => [] end ++ match p with Some (c, s, n) => c :: sign_text s ++ n | None => [] end) = false /\ starts_with (chars "@") (w ++ match f with Some f => chars "." ++ f | None => [] end ++ match p with Some (c, s, n) => c :: sign_text s ++ n | None => [] end) = false).
      { destruct w as [|c w].
        - destruct f as [f|]; [split; reflexivity|exfalso; apply N; reflexivity].
        - cbn [app chars list_ascii_of_string starts_with]. destruct (digit_facts c (Dw c (or_introl eq_refl))) as (_ & _ & _ & _ & _ & _ & _ & -> & ->). split; reflexivity. }
      destruct G as [G1 G2]. split; [exact G1|split; [exact G2|]].
      destruct f as [f|]; [cbn [chars list_ascii_of_string app]; apply ND; reflexivity|]. cbn [app].
      destruct p as [[[c t0] n]|]; [|exfalso; apply P; repeat split]. apply ND. destruct Hp as [Hp _]. cbn in Hp. destruct Hp as [<-|[<-|[<-|[]]]]; reflexivity. }
    destruct Q1 as (-> & -> & ->). rewrite R. reflexivity.
Qed.
(** * From a file to variables *)
Lemma all_some_map {A B} (f : A -> option B) g l : (forall x, In x l -> f x = Some (g x)) -> all_some (map f l) = Some (map g l).
Proof. induction l as [|x l IH]; intros H; [reflexivity|]. cbn. rewrite H by (left; reflexivity). rewrite IH by (intros y Hy; apply H; right; exact Hy). reflexivity. Qed.
Definition value_of (t : name) : literal := match evaluate t with Some v => v | None => Int 0 end.
Lemma show_longer l : (List.length l <= List.length (flat_map show l))%nat.
Proof. induction l as [|[[n e] vs] l IH]; [reflexivity|]. cbn [flat_map]. rewrite app_length. cbn [List.length]. assert (1 <= List.length (show (n, e, vs)))%nat; [|lia]. destruct vs as [|v [|w vs]]; cbn; lia. Qed.
Lemma means_plain t v : means t v -> plain_value t.
Proof.
  intros H. assert (E : exists v', evaluate t = Some v') by (destruct (evaluate_means t v H) as (v' & E & _); eauto). destruct E as (v' & E). split; intros ->; discriminate.
Qed.
Lemma load_meant l lines vars : (forall n e vs t, In (n, e, vs) l -> In t vs -> exists v, means t v) -> document (flat_map show l) lines ->
  load_lines lines vars = Some (load vars (map (fun a => (fst a, map value_of (snd a))) l)).
Proof.
  intros M D. unfold load_lines. rewrite (document_tokens _ _ D). rewrite parse_show.
  - rewrite map_map. cbn [fst snd]. rewrite (all_some_map _ (fun a => (fst a, map value_of (snd a)))); [reflexivity|]. intros [[n e] vs] I. unfold evaluated. cbn [fst snd].
    rewrite (all_some_map _ value_of); [reflexivity|]. intros t Ht. destruct (M n e vs t I Ht) as (v & Hv). destruct (evaluate_means t v Hv) as (v' & E & _). unfold value_of. rewrite E. reflexivity.
  - intros n e vs t I Ht. destruct (M n e vs t I Ht) as (v & Hv). exact (means_plain t v Hv).
  - apply show_longer.
Qed.
Lemma value_stands t : (exists v, means t v) -> stands_for t (value_of t).
Proof. intros [v V]. destruct (evaluate_means t v V) as (v' & E & S). exists v. split; [exact V|]. unfold value_of. rewrite E. exact S. Qed.
Lemma load_other_names (l : list (name * equals * list literal)) n vars : ~ In n (map names l) -> load vars l n = vars n.
Proof. intros H. apply load_other. intros a Ha E. apply H. rewrite <- E. apply in_map. exact Ha. Qed.
Lemma kernel_loaded l lines vars : (forall n e vs t, In (n, e, vs) l -> In t vs -> exists v, means t v) -> document (flat_map show l) lines ->
  exists vars', load_lines lines vars = Some vars' /\ pool_after l vars vars'.
Proof.
  intros M D. eexists. split; [apply load_meant; eassumption|]. set (f := fun a : name * equals * list name => (fst a, map value_of (snd a))).
  assert (N : forall k, map names (map f k) = map names k) by (intros k; rewrite map_map; reflexivity).
  split; [|split].
  - intros n H. apply load_other_names. rewrite N. exact H.
  - intros pre n vs post -> H Hs. rewrite map_app. cbn [map]. change (f (n, Assign, vs)) with (n, Assign, map value_of vs). rewrite load_assigned.
    + assert (A : appended n (map f post) = map value_of (appended n post)).
      { clear. unfold appended. induction post as [|[[m e] ws] post IH]; [reflexivity|]. cbn [map flat_map f fst snd]. rewrite IH, map_app. f_equal. destruct e; [reflexivity|]. destruct (name_eqb m n); reflexivity. }
      rewrite A, <- map_app. assert (I : forall t, In t (vs ++ appended n post) -> exists v, means t v).
      { intros t Ht. apply in_app_or in Ht as [Ht|Ht]; [apply (M n Assign vs); [apply in_or_app; right; left; reflexivity|exact Ht]|]. unfold appended in Ht. apply in_flat_map in Ht as ([[m e] ws] & I & Ht). destruct e; [destruct Ht|]. destruct (name_eqb m n); [|destruct Ht]. apply (M m Append ws); [apply in_or_app; right; right; exact I|exact Ht]. }
      revert I. generalize (vs ++ appended n post). intros ts I. induction ts as [|t ts IH]; [constructor|]. cbn. constructor; [apply value_stands, I; left; reflexivity|apply IH; intros u Hu; apply I; right; exact Hu].
    + intros m ws I. apply in_map_iff in I as ([[m' e'] ws'] & E & I). cbn in E. injection E as -> -> _. eapply H. exact I.
    + destruct Hs as [Hs|Hs]; [left; rewrite map_length; exact Hs|right; rewrite N; exact Hs].
  - intros pre n vs post -> H. rewrite map_app. cbn [map]. change (f (n, Assign, vs)) with (n, Assign, map value_of vs). rewrite load_app. cbn [load fold_left]. fold (load (load_one (load vars (map f pre)) (n, Assign, map value_of vs)) (map f post)).
    rewrite load_other_names by (rewrite N; exact H). destruct vs as [|t [|u vs]]; cbn [map load_one]; unfold put; rewrite name_eqb_refl; split; intros X; try (cbn in X; congruence); try (cbn in X; lia); [|eauto|]; eexists; reflexivity.
Qed.
Lemma kernel_read m b l lines vars : In m [chars "KPL/FK"; chars "KPL/PCK"] -> only blanks b -> none_of [line_feed] b -> Forall whole_line lines ->
  (forall n e vs t, In (n, e, vs) l -> In t vs -> exists v, means t v) -> document (flat_map show l) lines ->
  exists vars', read_text (m ++ b ++ [line_feed] ++ List.concat lines) vars = Some vars' /\ pool_after l vars vars'.
Proof.
  intros Hm B NB W M D. rewrite (read_document m b (flat_map show l)) by assumption. apply kernel_loaded; assumption.
Qed.
(** * What is not read *)
Lemma tab_glues : exists s, tokens_of (chars "AB" ++ s ++ chars "=" ++ s ++ chars "5") <> [chars "AB"; chars "="; chars "5"] /\ only blanks s /\ s <> [].
Proof. exists ["009"%char]. split; [vm_compute; discriminate|]. split; [|discriminate]. intros c [<-|[]]. right. left. reflexivity. Qed.
Lemma lower_d_refused : evaluate (chars "1.5d3") = None /\ exists q, evaluate (chars "1.5D3") = Some (Float q) /\ (q == 1500)%Q.
Proof. split; [reflexivity|]. eexists. split; [reflexivity|]. vm_compute. reflexivity. Qed.
Lemma doubled_quote : exists u w, tokens_of (chars "'" ++ u ++ chars "''" ++ w ++ chars "'") <> [chars "'" ++ u ++ chars "''" ++ w ++ chars "'"].
Proof. exists (chars "a"), (chars "b"). vm_compute. discriminate. Qed.
Lemma dates_refused r : evaluate (chars "@" ++ r) = None.
Proof. reflexivity. Qed.
Lemma negative_float n : numeral n -> exists q, evaluate (chars "-" ++ n) = Some (Float q) /\ (q == inject_Z (- number_of (rev n)))%Q.
Proof.
  intros N. set (d := Decimal Minus n None None). assert (O : decimal_ok d) by (split; [unfold fraction_digits; cbn; rewrite app_nil_r; exact N|exact I]).
  destruct (evaluate_means (decimal_text d) (Float (decimal_value d))) as (v & E & S).
  - apply means_float; [exact O|intros (X & _); discriminate|reflexivity].
  - destruct v as [| |q]; try contradiction. exists q. unfold decimal_text in E. cbn in E. rewrite app_nil_r in E. split; [exact E|]. cbn in S. rewrite <- S. unfold decimal_value, fraction_digits. cbn [d d_sign d_whole d_fraction d_power List.length]. rewrite app_nil_r. cbn [sign_value]. change (10 ^ (0 - Z.of_nat 0))%Q with 1%Q. rewrite Qmult_1_r. replace (-1 * number_of (rev n))%Z with (- number_of (rev n))%Z by lia. reflexivity.
Qed.
(** * An example *)
Definition eol (s : string) : name := chars s ++ [line_feed].
Definition demo_lines : list name :=
  [eol "Radii of the example."; eol ""; eol "   \begindata"; eol "BODY9_RADII = ( 1.5D3, -2,"; eol "  +.25 )"; eol "BODY9_NAME='it is'"; eol "\begintext"; eol "The end."].
Definition demo_list : list (name * equals * list name) :=
  [(chars "BODY9_RADII", Assign, [chars "1.5D3"; chars "-2"; chars "+.25"]); (chars "BODY9_NAME", Assign, [chars "'it is'"])].
Lemma only_b l s : forallb (fun c => is_in c l) s = true -> only l s.
Proof. intros H c Hc. rewrite forallb_forall in H. apply letters_in, H, Hc. Qed.
Lemma none_b l s : forallb (fun c => negb (is_in c l)) s = true -> none_of l s.
Proof. intros H c Hc I. rewrite forallb_forall in H. specialize (H c Hc). rewrite in_is in H by exact I. discriminate. Qed.
Lemma comment_b line : negb (name_eqb (strip line) begindata) = true -> comment line.
Proof. intros H A. rewrite (strip_around _ _ (proj1 data_tight) A) in H. vm_compute in H. discriminate. Qed.
Ltac tok s k t rest := match goal with |- written _ ?l => change l with (s ++ t ++ rest) end; apply (written_token s k t _ rest); [apply only_b; reflexivity| | |].
Ltac wd := cbn; apply token_word; [repeat (first [left; reflexivity|right])|apply only_b; reflexivity].
Ltac nonein := let X := fresh in intros X; cbn in X; repeat (destruct X as [X|X]; [discriminate X|]); exact X.
Lemma demo_document : document (flat_map show demo_list) demo_lines.
Proof.
  change (flat_map show demo_list) with (List.concat [[chars "BODY9_RADII"; chars "="; chars "("; chars "1.5D3"; chars "-2"]; [chars "+.25"; chars ")"]; [chars "BODY9_NAME"; chars "="; chars "'it is'"]] ++ []).
  unfold demo_lines. apply (block [eol "Radii of the example."; eol ""] (eol "   \begindata") [eol "BODY9_RADII = ( 1.5D3, -2,"; eol "  +.25 )"; eol "BODY9_NAME='it is'"]).
  - repeat (apply Forall_cons; [apply comment_b; reflexivity|]). apply Forall_nil.
  - exists (chars "   "), [line_feed]. split; [apply only_b; reflexivity|]. split; [apply only_b; reflexivity|reflexivity].
  - apply Forall2_cons; [|apply Forall2_cons; [|apply Forall2_cons; [|apply Forall2_nil]]].
    + exists (chars "BODY9_RADII = ( 1.5D3, -2,"). split; [split; nonein|]. split; [|exists [], [line_feed]; repeat split; try (apply only_b; reflexivity)].
      tok (chars "") Word (chars "BODY9_RADII") (chars " = ( 1.5D3, -2,"); [wd|nonein|].
      tok (chars " ") Mark (chars "=") (chars " ( 1.5D3, -2,"); [apply token_mark; left; reflexivity|exact I|].
      tok (chars " ") Mark (chars "(") (chars " 1.5D3, -2,"); [apply token_mark; right; right; left; reflexivity|exact I|].
      tok (chars " ") Number (chars "1.5D3") (chars ", -2,"); [cbn; apply token_number; [apply letters_in; reflexivity|apply none_b; reflexivity|discriminate]|right; left; reflexivity|].
      tok (chars ", ") Number (chars "-2") (chars ","); [cbn; apply token_number; [apply letters_in; reflexivity|apply none_b; reflexivity|discriminate]|right; left; reflexivity|].
      apply written_nothing, only_b. reflexivity.
    + exists (chars "+.25 )"). split; [split; nonein|]. split; [|exists (chars "  "), [line_feed]; repeat split; try (apply only_b; reflexivity)].
      tok (chars "") Number (chars "+.25") (chars " )"); [cbn; apply token_number; [apply letters_in; reflexivity|apply none_b; reflexivity|discriminate]|right; right; left; reflexivity|].
      tok (chars " ") Mark (chars ")") (chars ""); [apply token_mark; right; right; right; left; reflexivity|exact I|].
      apply written_nothing, only_b. reflexivity.
    + exists (chars "BODY9_NAME='it is'"). split; [split; nonein|]. split; [|exists [], [line_feed]; repeat split; try (apply only_b; reflexivity)].
      tok (chars "") Word (chars "BODY9_NAME") (chars "='it is'"); [wd|nonein|].
      tok (chars "") Mark (chars "=") (chars "'it is'"); [apply token_mark; left; reflexivity|exact I|].
      tok (chars "") Quoted (chars "'it is'") (chars ""); [apply (token_quoted (chars "it is")); apply none_b; reflexivity|exact I|].
      apply written_nothing, only_b. reflexivity.
  - exists [], [line_feed]. split; [apply only_b; reflexivity|]. split; [apply only_b; reflexivity|reflexivity].
  - apply comments_only. repeat (apply Forall_cons; [apply comment_b; reflexivity|]). apply Forall_nil.
Qed.
Lemma demo_means n e vs t : In (n, e, vs) demo_list -> In t vs -> exists v, means t v.
Proof.
  assert (N : forall s, s <> [] -> forallb (fun c => is_in c digits) s = true -> numeral s) by (intros s A B; split; [exact A|apply only_b; exact B]).
  intros [E|[E|[]]]; injection E as <- <- <-.
  - intros [<-|[<-|[<-|[]]]].
    + eexists. apply (means_float (Decimal NoSign (chars "1") (Some (chars "5")) (Some ("D"%char, NoSign, chars "3")))); [|intros (_ & X & _); discriminate|reflexivity]. split; [apply N; [discriminate|reflexivity]|]. split; [apply letters_in; reflexivity|apply N; [discriminate|reflexivity]].
    + eexists. apply (means_float (Decimal Minus (chars "2") None None)); [|intros (X & _); discriminate|reflexivity]. split; [apply N; [discriminate|reflexivity]|exact I].
    + eexists. apply (means_float (Decimal Plus [] (Some (chars "25")) None)); [|intros (X & _); discriminate|reflexivity]. split; [apply N; [discriminate|reflexivity]|exact I].
  - intros [<-|[]]. eexists. apply (means_text (chars "it is")). apply none_b. reflexivity.
Qed.
Lemma demo_whole : Forall whole_line demo_lines.
Proof. unfold demo_lines. repeat (apply Forall_cons; [eexists; split; [apply none_b|reflexivity]; reflexivity|]). apply Forall_nil. Qed.
(** * A value that cannot be read *)
Lemma all_some_none {A} (l : list (option A)) : In None l -> all_some l = None.
Proof. induction l as [|[x|] l IH]; intros H; [destruct H| |reflexivity]. cbn. destruct H as [H|H]; [discriminate|]. rewrite IH by exact H. reflexivity. Qed.
Lemma kernel_date m b l lines vars n e vs r : In m [chars "KPL/FK"; chars "KPL/PCK"] -> only blanks b -> none_of [line_feed] b -> Forall whole_line lines ->
  (forall n e vs t, In (n, e, vs) l -> In t vs -> plain_value t) -> document (flat_map show l) lines -> In (n, e, vs) l -> In (chars "@" ++ r) vs ->
  read_text (m ++ b ++ [line_feed] ++ List.concat lines) vars = None.
Proof.
  intros Hm B NB W P D I J. rewrite (read_document m b (flat_map show l)) by assumption. unfold load_lines. rewrite (document_tokens _ _ D). rewrite parse_show; [|exact P|apply show_longer].
  rewrite all_some_none; [reflexivity|]. apply in_map_iff. exists (n, e, map evaluate vs). split.
  - unfold evaluated. cbn [fst snd]. rewrite all_some_none; [reflexivity|]. apply in_map_iff. exists (chars "@" ++ r). split; [apply dates_refused|exact J].
  - apply in_map_iff. exists (n, e, vs). split; [reflexivity|exact I].
Qed.
Definition dated_lines : list name := [eol "\begindata"; eol "EPOCH = @01-MAY-1991"; eol "\begintext"].
Definition dated_list : list (name * equals * list name) := [(chars "EPOCH", Assign, [chars "@" ++ chars "01-MAY-1991"])].
Lemma dated_document : document (flat_map show dated_list) dated_lines.
Proof.
  change (flat_map show dated_list) with (List.concat [[chars "EPOCH"; chars "="; chars "@01-MAY-1991"]] ++ []).
  unfold dated_lines. apply (block [] (eol "\begindata") [eol "EPOCH = @01-MAY-1991"]).
  - apply Forall_nil.
  - exists [], [line_feed]. split; [apply only_b; reflexivity|]. split; [apply only_b; reflexivity|reflexivity].
  - apply Forall2_cons; [|apply Forall2_nil]. exists (chars "EPOCH = @01-MAY-1991"). split; [split; nonein|]. split; [|exists [], [line_feed]; repeat split; try (apply only_b; reflexivity)].
    tok (chars "") Word (chars "EPOCH") (chars " = @01-MAY-1991"); [wd|nonein|].
    tok (chars " ") Mark (chars "=") (chars " @01-MAY-1991"); [apply token_mark; left; reflexivity|exact I|].
    tok (chars " ") Number (chars "@01-MAY-1991") (chars ""); [cbn; apply token_number; [apply letters_in; reflexivity|apply none_b; reflexivity|discriminate]|exact I|].
    apply written_nothing, only_b. reflexivity.
  - exists [], [line_feed]. split; [apply only_b; reflexivity|]. split; [apply only_b; reflexivity|reflexivity].
  - apply comments_only. apply Forall_nil.
Qed.
Lemma dated_ok : Forall whole_line dated_lines /\ (forall n e vs t, In (n, e, vs) dated_list -> In t vs -> plain_value t).
Proof.
  split.
  - unfold dated_lines. repeat (apply Forall_cons; [eexists; split; [apply none_b|reflexivity]; reflexivity|]). apply Forall_nil.
  - intros n e vs t [E|[]]. injection E as <- <- <-. intros [<-|[]]. split; discriminate.
Qed.
