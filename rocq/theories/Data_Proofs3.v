(** Proofs about the columns of IERS finals files. *)
From Coq Require Import ZArith QArith Qround Qfield Bool String Ascii Lia List.
From Verif Require Import PyNum Download_Model Data_Model Data_Spec Data_Proofs Data_Proofs2.
Import ListNotations.
Open Scope Z_scope.

(** * Numerals *)
Lemma fixed_digits_length d : forall n, length (fixed_digits d n) = d.
Proof. induction d as [|d IH]; intros n; [reflexivity|]. cbn [fixed_digits]. rewrite app_length, IH. cbn. lia. Qed.
Lemma pow_succ d : 10 ^ Z.of_nat (S d) = 10 * 10 ^ Z.of_nat d.
Proof. rewrite Nat2Z.inj_succ, Z.pow_succ_r by lia. reflexivity. Qed.
Lemma fixed_digits_value d : forall n acc, 0 <= n < 10 ^ Z.of_nat d ->
  digits_value (fixed_digits d n) acc = Some (acc * 10 ^ Z.of_nat d + n).
Proof.
  induction d as [|d IH]; intros n acc H.
  - cbn in *. f_equal. lia.
  - rewrite pow_succ in *. cbn [fixed_digits]. pose proof (Z.mod_pos_bound n 10 ltac:(lia)). pose proof (Z.div_mod n 10 ltac:(lia)).
    rewrite digits_value_app, IH by (split; [apply Z.div_pos; lia|apply Z.div_lt_upper_bound; lia]).
    rewrite digits_value_code by lia. cbn [digits_value]. f_equal. nia.
Qed.
Lemma decimal_shortest s : forall v, digits_value s 0 = Some v -> v = 0 \/ (length (decimal (Z.to_nat v)) <= length s)%nat.
Proof.
  induction s as [|c s IH]; intros v H; [cbn in H; left; congruence|].
  destruct (ascii_dec c "0") as [->|N].
  - assert (H' : digits_value s 0 = Some v) by exact H. destruct (IH v H') as [->|L]; [left; reflexivity|right; cbn; lia].
  - right. rewrite (decimal_unique c s v H N). lia.
Qed.
Lemma decimal_length n k : (1 <= k)%nat -> 0 <= n < 10 ^ Z.of_nat k -> (1 <= length (decimal (Z.to_nat n)) <= k)%nat.
Proof.
  intros Hk Hn. split.
  - destruct (decimal_int (Z.to_nat n)) as [_ [_ N]]. destruct (decimal (Z.to_nat n)); [congruence|cbn; lia].
  - pose proof (fixed_digits_value k n 0 Hn) as V. replace (0 * 10 ^ Z.of_nat k + n) with n in V by lia.
    destruct (decimal_shortest _ _ V) as [->|L]; [cbn; lia|rewrite fixed_digits_length in L; exact L].
Qed.
Lemma fixed_digits_digits d n : 0 <= n < 10 ^ Z.of_nat d -> Forall (fun c => isdigit c = true) (fixed_digits d n).
Proof. intros H. exact (digits_value_digits _ _ _ (fixed_digits_value d n 0 H)). Qed.
Lemma cut_dot_digits a : Forall (fun c => isdigit c = true) a -> forall w b, cut_dot w (a ++ "."%char :: b) = Some (rev w ++ a, b).
Proof.
  induction 1 as [|c a Hc _ IH]; intros w b; cbn [app cut_dot].
  - rewrite app_nil_r. reflexivity.
  - destruct (Ascii.eqb_spec c "."); [subst; discriminate|]. rewrite IH. cbn [rev]. rewrite <- app_assoc. reflexivity.
Qed.
Lemma abs_parts d z : let a := Z.abs z in let P := 10 ^ Z.of_nat d in
  0 < P /\ 0 <= a mod P < P /\ 0 <= a / P /\ (a / P) * P + a mod P = a.
Proof.
  intros a P. assert (0 < P) by (apply Z.pow_pos_nonneg; lia). pose proof (Z.mod_pos_bound a P H). pose proof (Z.div_mod a P ltac:(lia)).
  repeat split; try lia. apply Z.div_pos; lia.
Qed.
Definition magnitude (d : nat) (z : Z) : txt :=
  decimal (Z.to_nat (Z.abs z / 10 ^ Z.of_nat d)) ++ "."%char :: fixed_digits d (Z.abs z mod 10 ^ Z.of_nat d).
Lemma magnitude_float d z : (1 <= d)%nat -> unsigned_float (magnitude d z) = Some (inject_Z (Z.abs z) / inject_Z (10 ^ Z.of_nat d))%Q.
Proof.
  intros Hd. destruct (abs_parts d z) as [HP [Hm [Hq E]]]. unfold unsigned_float, magnitude.
  rewrite cut_dot_digits by apply decimal_digits. cbn [rev app].
  destruct (decimal_head (Z.to_nat (Z.abs z / 10 ^ Z.of_nat d))) as [c [r [Ed _]]].
  assert (V : digits_value (decimal (Z.to_nat (Z.abs z / 10 ^ Z.of_nat d)) ++ fixed_digits d (Z.abs z mod 10 ^ Z.of_nat d)) 0 = Some (Z.abs z)).
  { rewrite digits_value_app, (proj1 (proj2 (decimal_int _))), Z2Nat.id by exact Hq.
    rewrite fixed_digits_value by exact Hm. f_equal. exact E. }
  rewrite Ed in *. rewrite V, fixed_digits_length. reflexivity.
Qed.
Lemma strip_word b c t : blanks b -> Forall (fun x => ~ blank x) (c :: t) -> strip (b ++ c :: t) = c :: t.
Proof.
  intros Hb Hw. unfold strip. rewrite lstrip_blanks, lstrip_word by (assumption || exact (Forall_inv Hw)).
  assert (R : Forall (fun x => ~ blank x) (rev (c :: t))) by (apply Forall_rev; exact Hw).
  destruct (rev (c :: t)) as [|x l] eqn:E; [apply (f_equal (@rev _)) in E; rewrite rev_involutive in E; discriminate|].
  rewrite lstrip_word by exact (Forall_inv R). rewrite <- E. apply rev_involutive.
Qed.
Lemma blank_repeat n : blanks (repeat " "%char n).
Proof. apply Forall_forall. intros x H. apply repeat_spec in H. subst. left. reflexivity. Qed.
Lemma sign_dot_not_blank : ~ blank "-"%char /\ ~ blank "."%char.
Proof. split; intros B; cbn in B; intuition discriminate. Qed.
Lemma magnitude_head d z : exists c r, magnitude d z = c :: r /\ isdigit c = true.
Proof.
  unfold magnitude. destruct (decimal_head (Z.to_nat (Z.abs z / 10 ^ Z.of_nat d))) as [c [r [-> H]]]. cbn. eauto.
Qed.
Lemma magnitude_nonblank d z : Forall (fun x => ~ blank x) (magnitude d z).
Proof.
  destruct (abs_parts d z) as [_ [Hm _]]. unfold magnitude. apply Forall_app. split; [apply decimal_word|].
  constructor; [apply sign_dot_not_blank|]. eapply Forall_impl; [|apply fixed_digits_digits, Hm]. intros x. apply digit_not_blank.
Qed.
Lemma fixed_text_sign d z : fixed_text d z = (if z <? 0 then ["-"%char] else []) ++ magnitude d z.
Proof. reflexivity. Qed.
Lemma fixed_float w d z : (1 <= d)%nat -> py_float (fixed w d z) = Some (inject_Z z / inject_Z (10 ^ Z.of_nat d))%Q.
Proof.
  intros Hd. unfold py_float, fixed. rewrite fixed_text_sign. destruct (magnitude_head d z) as [c [r [E Hc]]].
  pose proof (magnitude_nonblank d z) as NB. pose proof (magnitude_float d z Hd) as M. rewrite E in *.
  destruct (Z.ltb_spec z 0); cbn [app].
  - rewrite strip_word; [|apply blank_repeat|constructor; [apply sign_dot_not_blank|exact NB]].
    change (Ascii.eqb "-" "-") with true. cbv iota. rewrite M. cbn [option_map]. f_equal.
    rewrite Z.abs_neq by lia. unfold Qopp, Qdiv, Qmult, inject_Z. cbn [Qnum Qden].
    destruct (Qinv _) as [a b]. cbn [Qnum Qden]. f_equal; ring.
  - rewrite strip_word by (apply blank_repeat || exact NB).
    destruct (Ascii.eqb_spec c "-"); [subst; discriminate|]. destruct (Ascii.eqb_spec c "+"); [subst; discriminate|].
    rewrite M, Z.abs_eq by lia. reflexivity.
Qed.

(** * Columns *)
Lemma not_lf_ord c : c <> "010"%char -> negb (ord c =? 10) = true.
Proof. intros H. apply negb_true_iff, Z.eqb_neq. intros E. apply H, (ord_inj c "010"). exact E. Qed.
Lemma nonblank_not_lf c : ~ blank c -> not_lf c.
Proof. intros H E. apply H. subst. cbn. tauto. Qed.
Lemma fixed_not_lf w d z : Forall not_lf (fixed w d z).
Proof.
  unfold fixed. apply Forall_app. split.
  - apply Forall_forall. intros x H. apply repeat_spec in H. subst. discriminate.
  - rewrite fixed_text_sign. apply Forall_app. split.
    + destruct (z <? 0); repeat constructor. discriminate.
    + eapply Forall_impl; [|apply magnitude_nonblank]. apply nonblank_not_lf.
Qed.
Lemma fixed_length w d z : (length (fixed_text d z) <= w)%nat -> length (fixed w d z) = w.
Proof. intros H. unfold fixed. rewrite app_length, repeat_length. lia. Qed.
Lemma magnitude_length d z k : (1 <= k)%nat -> Z.abs z < 10 ^ Z.of_nat (k + d) ->
  (d + 2 <= length (magnitude d z) <= k + d + 1)%nat.
Proof.
  intros Hk H. destruct (abs_parts d z) as [HP [Hm [Hq E]]].
  assert (L : (1 <= length (decimal (Z.to_nat (Z.abs z / 10 ^ Z.of_nat d))) <= k)%nat).
  { apply decimal_length; [exact Hk|]. split; [exact Hq|]. apply Z.div_lt_upper_bound; [exact HP|].
    rewrite <- Z.pow_add_r, <- Nat2Z.inj_add by lia. replace (d + k)%nat with (k + d)%nat by lia. exact H. }
  unfold magnitude. rewrite app_length. cbn [length]. rewrite fixed_digits_length. lia.
Qed.
(** Numbers with one digit before the point and room for a sign. *)
Lemma fixed_one d z : Z.abs z < 10 ^ Z.of_nat (1 + d) -> exists a b t, fixed (3 + d) d z = a :: b :: t /\
  isdigit b = true /\ length t = (1 + d)%nat /\ not_lf a /\ Forall not_lf t.
Proof.
  intros H. pose proof (magnitude_length d z 1 ltac:(lia) H) as L. pose proof (fixed_not_lf (3 + d) d z) as N.
  destruct (magnitude_head d z) as [c [r [E Hc]]]. unfold fixed in *. rewrite fixed_text_sign in *. rewrite E in *. cbn [length] in L.
  destruct (z <? 0); cbn [app length] in *.
  - replace (3 + d - S (S (length r)))%nat with 0%nat in * by lia. cbn [repeat app] in *.
    exists "-"%char, c, r. repeat split; [exact Hc|lia|exact (Forall_inv N)|exact (Forall_inv_tail (Forall_inv_tail N))].
  - replace (3 + d - S (length r))%nat with 1%nat in * by lia. cbn [repeat app] in *.
    exists " "%char, c, r. repeat split; [exact Hc|lia|exact (Forall_inv N)|exact (Forall_inv_tail (Forall_inv_tail N))].
Qed.
Lemma match_some ps : forall a s, Forall2 (fun p c => piece_ok p c = true) ps a -> match_pieces ps (a ++ s) = Some (a, s).
Proof.
  induction ps as [|p ps IH]; intros a s H; inversion H as [|? c ? r Hc Hr]; subst; [destruct s; reflexivity|].
  cbn [app match_pieces]. rewrite Hc, IH by exact Hr. reflexivity.
Qed.
Lemma dots l : Forall not_lf l -> Forall2 (fun p c => piece_ok p c = true) (repeat Dot (length l)) l.
Proof. induction 1; constructor; [apply not_lf_ord; assumption|assumption]. Qed.
Lemma dots_n n l : length l = n -> Forall not_lf l -> Forall2 (fun p c => piece_ok p c = true) (repeat Dot n) l.
Proof. intros <-. apply dots. Qed.
Lemma finals_groups r : finals_ok r -> match_groups R_pieces (finals_line r) =
  Some [" "%char :: fixed 8 2 (f_mjd r); fixed 9 6 (f_x r); fixed 9 6 (f_y r); fixed 10 7 (f_dut1 r)].
Proof.
  intros [Hd [Hn [H1 [H2 [Hm [Hx [Hsx [Hy [Hsy Hu]]]]]]]]].
  assert (Lm : length (fixed 8 2 (f_mjd r)) = 8%nat).
  { apply fixed_length. rewrite fixed_text_sign. replace (f_mjd r <? 0) with false by (symmetry; apply Z.ltb_ge; lia). cbn [app].
    pose proof (magnitude_length 2 (f_mjd r) 5 ltac:(lia) ltac:(cbn; lia)). lia. }
  assert (F9 : forall z, Z.abs z < 10000000 -> Forall2 (fun p c => piece_ok p c = true) (Dot :: Digit :: repeat Dot 7) (fixed 9 6 z) /\ length (fixed 9 6 z) = 9%nat).
  { intros z Hz. destruct (fixed_one 6 z Hz) as [a [b [t [E [Hb [Lt [Ha Ht]]]]]]]. cbn [plus] in E. rewrite E. split; [|cbn; lia].
    constructor; [apply not_lf_ord, Ha|]. constructor; [exact Hb|]. apply dots_n; [exact Lt|exact Ht]. }
  destruct (fixed_one 7 (f_dut1 r) ltac:(cbn; lia)) as [a [b [t [E [Hb [Lt [Ha Ht]]]]]]]. cbn [plus] in E.
  assert (S9 : forall z, Z.abs z < 10000000 -> Forall2 (fun p c => piece_ok p c = true) (repeat Dot 9) (fixed 9 6 z)).
  { intros z Hz. apply dots_n; [apply F9, Hz|apply fixed_not_lf]. }
  unfold finals_line, R_pieces. cbn [match_groups].
  rewrite (match_some _ (f_date r)) by (apply dots_n; assumption).
  rewrite app_assoc. rewrite (match_some _ ([" "%char] ++ fixed 8 2 (f_mjd r))) by
    (apply dots_n; [cbn [app length]; rewrite Lm; reflexivity|constructor; [discriminate|apply fixed_not_lf]]).
  rewrite (match_some _ [" "%char; f_flag r; " "%char]) by (repeat constructor; apply not_lf_ord, H1).
  rewrite (match_some _ (fixed 9 6 (f_x r))) by (apply F9; lia).
  rewrite (app_assoc (fixed 9 6 (f_sx r))). rewrite (match_some _ (fixed 9 6 (f_sx r) ++ [" "%char])) by
    (apply Forall2_app; [apply S9; lia|repeat constructor]).
  rewrite (match_some _ (fixed 9 6 (f_y r))) by (apply F9; lia).
  rewrite (app_assoc (fixed 9 6 (f_sy r))). rewrite (match_some _ (fixed 9 6 (f_sy r) ++ [" "%char; " "%char])) by
    (apply Forall2_app; [apply S9; lia|repeat constructor]).
  rewrite (match_some _ [f_flag2 r]) by (repeat constructor; apply not_lf_ord, H2).
  rewrite (match_some _ (fixed 10 7 (f_dut1 r))) by
    (rewrite E; constructor; [apply not_lf_ord, Ha|constructor; [exact Hb|apply dots_n; [exact Lt|exact Ht]]]).
  reflexivity.
Qed.
Lemma match_pieces_ok ps : forall s w rest, match_pieces ps s = Some (w, rest) ->
  s = w ++ rest /\ Forall2 (fun p c => piece_ok p c = true) ps w.
Proof.
  induction ps as [|p ps IH]; intros s w rest H; cbn [match_pieces] in H.
  - assert (H' : Some (@nil ascii, s) = Some (w, rest)) by (destruct s; exact H). injection H' as <- <-. split; [reflexivity|constructor].
  - destruct s as [|c s]; [discriminate|]. destruct (piece_ok p c) eqn:Ec; [|discriminate].
    destruct (match_pieces ps s) as [[w' rest']|] eqn:Em; [|discriminate]. injection H as <- <-.
    destruct (IH _ _ _ Em) as [-> F]. split; [reflexivity|constructor; assumption].
Qed.
Lemma match_groups_ok gs : forall s l, match_groups gs s = Some l -> exists w rest, s = w ++ rest /\
  Forall2 (fun p c => piece_ok p c = true) (concat (map snd gs)) w.
Proof.
  induction gs as [|[g ps] gs IH]; intros s l H; cbn [match_groups] in H.
  - exists [], s. split; [reflexivity|constructor].
  - destruct (match_pieces ps s) as [[w rest]|] eqn:E; [|discriminate]. destruct (match_groups gs rest) as [l'|] eqn:G; [|discriminate].
    destruct (match_pieces_ok _ _ _ _ E) as [-> F]. destruct (IH _ _ G) as [w' [rest' [-> F']]].
    exists (w ++ w'), rest'. split; [rewrite app_assoc; reflexivity|]. cbn. apply Forall2_app; assumption.
Qed.
Lemma forall2_nth {A B} (P : A -> B -> Prop) l m : Forall2 P l m -> forall k a b, (k < length l)%nat -> P (nth k l a) (nth k m b).
Proof.
  induction 1 as [|x y l m Hp _ IH]; intros k a b Hk; [cbn in Hk; lia|]. destruct k as [|k]; [exact Hp|]. cbn in *. apply IH. lia.
Qed.
Lemma forall2_length {A B} (P : A -> B -> Prop) l m : Forall2 P l m -> length l = length m.
Proof. induction 1; cbn; congruence. Qed.
Lemma valueless_skipped s : valueless s -> match_groups R_pieces s = None.
Proof.
  intros H. destruct (match_groups R_pieces s) as [l|] eqn:G; [|reflexivity]. exfalso.
  destruct (match_groups_ok _ _ _ G) as [w [rest [-> F]]]. pose proof (forall2_length _ _ _ F) as L.
  change (length (concat (map snd R_pieces))) with 68%nat in L.
  destruct H as [H|[k [Hk H]]]; [rewrite app_length in H; lia|].
  assert (K : (k < 68)%nat) by (cbn in Hk; lia). rewrite app_nth1 in H by lia.
  pose proof (forall2_nth _ _ _ F k Dot " "%char K) as X. rewrite H in X.
  cbn in Hk. destruct Hk as [<-|[<-|[<-|[]]]]; discriminate.
Qed.
Lemma finals_read l lines : finals_says l lines -> parse_finals lines = Some l.
Proof.
  induction 1 as [|r l ls Hr _ IH|s l ls Hs _ IH]; [reflexivity| |].
  - cbn [parse_finals]. rewrite finals_groups by exact Hr. rewrite !(fixed_float 9 6), (fixed_float 10 7), IH by lia.
    assert (M : py_float (" "%char :: fixed 8 2 (f_mjd r)) = Some (inject_Z (f_mjd r) / inject_Z (10 ^ Z.of_nat 2))%Q).
    { rewrite <- (fixed_float 8 2) by lia. reflexivity. }
    rewrite M. reflexivity.
  - cbn [parse_finals]. rewrite valueless_skipped by exact Hs. exact IH.
Qed.
