(** Proofs about formats: the searches, the replaced format, and the text. *)
From Coq Require Import ZArith QArith Qround Bool String Ascii List Lia Lqa.
From Verif Require Import PyNum Cal_Model Cal_Spec Time_Model Time_Spec Format_Model Format_Spec.
Import ListNotations.
Open Scope nat_scope.

Lemma flag_same c : strftime_flag c = is_flag c.
Proof. destruct c as [[] [] [] [] [] [] [] []]; reflexivity. Qed.
Lemma flags_same l : Forall (fun f => strftime_flag f = true) l -> Forall (fun f => is_flag f = true) l.
Proof. apply Forall_impl. intros a H. rewrite <- flag_same. exact H. Qed.
Lemma pct_no_flag c : is_flag c = true -> Ascii.eqb c "%" = false.
Proof.
  intros H. destruct (Ascii.eqb_spec c "%"); [subst c; discriminate H|reflexivity].
Qed.

Lemma write_app a b : write (a ++ b) = write a ++ write b.
Proof. apply flat_map_app. Qed.

Lemma parse_flags acc fl c r : Forall (fun f => is_flag f = true) fl -> is_flag c = false ->
  parse (Some acc) (fl ++ c :: r) = Dir (rev acc ++ fl) c :: parse None r.
Proof.
  intros H Hc. revert acc. induction H as [|f fl Hf _ IH]; intros acc; cbn [app parse].
  - rewrite Hc, app_nil_r. reflexivity.
  - rewrite Hf, IH. cbn [rev]. rewrite <- app_assoc. reflexivity.
Qed.

(** Reading back what was written gives the same pieces. *)
Lemma parse_write ps : Forall proper ps -> parse None (write ps) = ps.
Proof.
  induction 1 as [|p ps Hp _ IH]; [reflexivity|].
  unfold write in *. cbn [flat_map]. destruct p as [c|fl c]; cbn [write_piece proper] in *.
  - cbn [app parse]. rewrite (proj2 (Ascii.eqb_neq c "%") Hp), IH. reflexivity.
  - destruct Hp as [Hf Hc]. apply flags_same in Hf. rewrite flag_same in Hc. cbn [app parse]. rewrite Ascii.eqb_refl.
    rewrite <- app_assoc. cbn [app]. rewrite parse_flags by assumption. rewrite IH. reflexivity.
Qed.

(** A percent sign and flags at the very end stand for themselves. *)
Lemma parse_open acc fl : Forall (fun f => is_flag f = true) fl -> parse (Some acc) fl = Lit "%"%char :: map Lit (rev acc ++ fl).
Proof.
  intros H. revert acc. induction H as [|f fl Hf _ IH]; intros acc; cbn [parse].
  - rewrite app_nil_r. reflexivity.
  - rewrite Hf, IH. cbn [rev]. rewrite <- app_assoc. reflexivity.
Qed.
Lemma parse_write_open ps fl : Forall proper ps -> Forall (fun f => strftime_flag f = true) fl ->
  parse None (write ps ++ "%"%char :: fl) = ps ++ map Lit ("%"%char :: fl).
Proof.
  intros Hp Hf. apply flags_same in Hf. induction Hp as [|p ps Hp _ IH].
  - cbn [write flat_map app parse map]. rewrite Ascii.eqb_refl. rewrite parse_open by exact Hf. reflexivity.
  - unfold write in *. cbn [flat_map]. rewrite <- app_assoc. destruct p as [c|fl' c]; cbn [write_piece proper] in *.
    + cbn [app parse]. rewrite (proj2 (Ascii.eqb_neq c "%") Hp), IH. reflexivity.
    + destruct Hp as [Hf' Hc]. apply flags_same in Hf'. rewrite flag_same in Hc. cbn [app parse]. rewrite Ascii.eqb_refl.
      rewrite <- app_assoc. cbn [app]. rewrite parse_flags by assumption. rewrite IH. reflexivity.
Qed.

Lemma c_strftime_write show ps t : Forall proper ps ->
  c_strftime show (write ps) t =
  flat_map (fun p => match p with Lit c => [c] | Dir fl c => show t fl c end) ps.
Proof. intros H. unfold c_strftime. rewrite parse_write by assumption. reflexivity. Qed.

Definition shift (k : nat) (o : option (nat * nat)) : option (nat * nat) :=
  option_map (fun ab => (k + fst ab, k + snd ab)) o.

Lemma search_skip cls w r : Forall (fun c => c <> "%"%char) w ->
  search cls (w ++ r) = shift (length w) (search cls r).
Proof.
  induction 1 as [|c w Hc _ IH].
  - unfold shift. cbn. destruct (search cls r) as [[a b]|]; reflexivity.
  - cbn [app search length]. rewrite (proj2 (Ascii.eqb_neq c "%") Hc), IH.
    unfold shift. destruct (search cls r) as [[a b]|]; reflexivity.
Qed.

Lemma flags_then_flags cls fl c r : Forall (fun f => is_flag f = true) fl -> is_flag c = false ->
  flags_then cls (fl ++ c :: r) = if cls c then Some (S (length fl)) else None.
Proof.
  intros H Hc. induction H as [|f fl Hf _ IH]; cbn [app flags_then length].
  - rewrite Hc. destruct (cls c); reflexivity.
  - rewrite Hf, IH. destruct (cls c); reflexivity.
Qed.

Lemma flags_not_pct fl : Forall (fun f => is_flag f = true) fl -> Forall (fun c => c <> "%"%char) fl.
Proof.
  apply Forall_impl. intros a H E. subst a. discriminate H.
Qed.

Lemma search_piece cls p r : proper p -> ~ In "%"%char (letter p) ->
  (forall c, In c (letter p) -> cls c = false) ->
  search cls (write_piece p ++ r) = shift (length (write_piece p)) (search cls r).
Proof.
  intros Hp Hn Hc. destruct p as [c|fl c]; cbn [write_piece proper letter] in *.
  - apply search_skip. constructor; [exact Hp|constructor].
  - destruct Hp as [Hf Hg]. apply flags_same in Hf. rewrite flag_same in Hg. cbn [app search]. rewrite Ascii.eqb_refl.
    rewrite <- app_assoc. cbn [app]. rewrite flags_then_flags by assumption.
    rewrite (Hc c) by (left; reflexivity).
    change (fl ++ c :: r) with (fl ++ ([c] ++ r)). rewrite app_assoc.
    rewrite (search_skip cls (fl ++ [c]) r).
    + unfold shift. destruct (search cls r) as [[a b]|]; reflexivity.
    + apply Forall_app. split; [apply flags_not_pct; assumption|].
      constructor; [|constructor]. intros E. apply Hn. left. exact E.
Qed.

Lemma letters_cons p ps : letters (p :: ps) = letter p ++ letters ps.
Proof. reflexivity. Qed.
Lemma letters_app a b : letters (a ++ b) = letters a ++ letters b.
Proof. apply flat_map_app. Qed.

Lemma search_write cls pre rest : Forall proper pre -> ~ In "%"%char (letters pre) ->
  (forall c, In c (letters pre) -> cls c = false) ->
  search cls (write pre ++ rest) = shift (length (write pre)) (search cls rest).
Proof.
  induction 1 as [|p ps Hp _ IH]; intros Hn Hc.
  - unfold shift. cbn. destruct (search cls rest) as [[a b]|]; reflexivity.
  - change (write (p :: ps)) with (write_piece p ++ write ps).
    rewrite letters_cons in *.
    rewrite <- app_assoc, search_piece, IH; try assumption.
    + unfold shift. rewrite app_length. destruct (search cls rest) as [[a b]|]; cbn; [f_equal; f_equal; lia|reflexivity].
    + intros H. apply Hn, in_app_iff. right. exact H.
    + intros c H. apply Hc, in_app_iff. right. exact H.
    + intros H. apply Hn, in_app_iff. left. exact H.
    + intros c H. apply Hc, in_app_iff. left. exact H.
Qed.

(** Nothing is found in a format without such a directive. *)
Lemma search_none cls ps : Forall proper ps -> ~ In "%"%char (letters ps) ->
  (forall c, In c (letters ps) -> cls c = false) -> search cls (write ps) = None.
Proof.
  intros H1 H2 H3. rewrite <- (app_nil_r (write ps)), search_write by assumption. reflexivity.
Qed.

(** Otherwise the first such directive is found. *)
Lemma search_some cls pre fl c post : Forall proper (pre ++ Dir fl c :: post) ->
  ~ In "%"%char (letters pre) -> (forall c, In c (letters pre) -> cls c = false) -> cls c = true ->
  search cls (write (pre ++ Dir fl c :: post)) =
  Some (length (write pre), length (write pre) + (2 + length fl)).
Proof.
  intros H Hn Hc Hy. apply Forall_app in H as [Hp H]. assert (Hd := Forall_inv H). destruct Hd as [Hf Hg]. apply flags_same in Hf. rewrite flag_same in Hg.
  rewrite write_app, search_write by assumption.
  change (write (Dir fl c :: post)) with ("%"%char :: (fl ++ [c]) ++ write post).
  rewrite <- app_assoc. cbn [app search]. rewrite Ascii.eqb_refl, flags_then_flags, Hy by assumption.
  unfold shift. cbn. repeat f_equal; lia.
Qed.

(** Where a letter of a class occurs first. *)
Lemma first_letter (cls : ascii -> bool) ps :
  (forall c, In c (letters ps) -> cls c = false) \/
  exists pre fl c post, ps = pre ++ Dir fl c :: post /\ cls c = true /\
    (forall c, In c (letters pre) -> cls c = false).
Proof.
  induction ps as [|p ps IH].
  - left. intros c [].
  - destruct p as [c|fl c].
    + destruct IH as [IH|(pre & fl & d & post & -> & H1 & H2)].
      * left. exact IH.
      * right. exists (Lit c :: pre), fl, d, post. repeat split; assumption.
    + destruct (cls c) eqn:E.
      * right. exists [], fl, c, ps. repeat split; try assumption. intros d [].
      * destruct IH as [IH|(pre & fl' & d & post & -> & H1 & H2)].
        -- left. intros d [<-|H]; [exact E|apply IH, H].
        -- right. exists (Dir fl c :: pre), fl', d, post. repeat split; try assumption.
           intros d' [<-|H]; [exact E|apply H2, H].
Qed.

Lemma one_of_In l c : one_of l c = true <-> In c l.
Proof.
  unfold one_of. rewrite existsb_exists. split.
  - intros (x & H & E). apply Ascii.eqb_eq in E. subst x. exact H.
  - intros H. exists c. split; [exact H|apply Ascii.eqb_refl].
Qed.

(** A search succeeds exactly when the format has such a directive. *)
Lemma search_iff l ps : Forall proper ps -> ~ In "%"%char (letters ps) ->
  (search (one_of l) (write ps) <> None <-> shows_one_of l ps).
Proof.
  intros H1 H2. unfold shows_one_of.
  destruct (first_letter (one_of l) ps) as [H|(pre & fl & c & post & -> & Hc & Hp)].
  - rewrite search_none by assumption. split; [congruence|].
    intros (c & Hl & Hi). apply one_of_In in Hl. rewrite (H c Hi) in Hl. discriminate.
  - rewrite search_some; try assumption.
    + split; [intros _|discriminate]. exists c. split; [apply one_of_In, Hc|].
      rewrite letters_app. apply in_app_iff. right. left. reflexivity.
    + intros H. apply H2. rewrite letters_app. apply in_app_iff. left. exact H.
Qed.

Lemma put_zone_write pre fl post :
  put_zone (write (pre ++ Dir fl "f" :: post)) (length (write pre), length (write pre) + (2 + length fl)) =
  write (pre ++ Dir [] "Z" :: post).
Proof.
  unfold put_zone. cbn [fst snd]. rewrite !write_app.
  rewrite firstn_app, Nat.sub_diag, firstn_all, firstn_O, app_nil_r. f_equal.
  rewrite skipn_app, skipn_all2 by lia. rewrite Nat.add_comm, Nat.add_sub.
  change (write (Dir fl "f"%char :: post)) with (("%"%char :: fl ++ ["f"%char]) ++ write post).
  rewrite skipn_app, skipn_all2 by (cbn; rewrite app_length; cbn; lia).
  cbn [app length]. rewrite app_length. cbn [length].
  replace (2 + length fl - S (length fl + 1)) with 0 by lia. reflexivity.
Qed.

(** The offset by the directives of the format. *)
Lemma offset_write ps : Forall proper ps -> ~ In "%"%char (letters ps) -> ~ In "r"%char (letters ps) ->
  forall u, smallest_unit ps u ->
  fst (strftime_offset_seconds (write ps)) =
  match u with Microsecond => 1 # 10000000000000000 | Second => 1 # 2 | Minute => 30 | Longer => 0 end%Q.
Proof.
  intros H1 H2 Hr u Hu. unfold strftime_offset_seconds, smallest_unit in *. cbn [fst].
  unfold format_uses_milliseconds, format_uses_seconds, format_uses_minutes.
  pose proof (search_iff ["f"]%char ps H1 H2) as F1.
  pose proof (search_iff ["S"; "T"; "X"; "c"]%char ps H1 H2) as F2.
  pose proof (search_iff ["M"; "R"]%char ps H1 H2) as F3.
  assert (E : shows_one_of ["S"; "T"; "X"; "c"; "r"]%char ps <-> shows_one_of ["S"; "T"; "X"; "c"]%char ps).
  { unfold shows_one_of. split; intros (c & Hc & Hi); exists c; split; try exact Hi.
    - destruct Hc as [<-|[<-|[<-|[<-|[<-|[]]]]]]; [left| right; left|right; right; left|right; right; right; left|contradiction]; reflexivity.
    - destruct Hc as [<-|[<-|[<-|[<-|[]]]]]; [left| right; left|right; right; left|right; right; right; left]; reflexivity. }
  clear H1 H2 Hr.
  destruct (search (one_of ["f"]%char) (write ps)); destruct (search (one_of ["S"; "T"; "X"; "c"]%char) (write ps));
    destruct (search (one_of ["M"; "R"]%char) (write ps)); destruct u;
    repeat match goal with
           | H : Some ?x <> None <-> _ |- _ =>
               let h := fresh in assert (h := proj1 H ltac:(discriminate)); clear H
           | H : None <> None <-> ?P |- _ =>
               let h := fresh in assert (h : ~ P) by (intros h; exact (proj2 H h eq_refl)); clear H
           end; try reflexivity; tauto.
Qed.

Lemma count_f pre fl post : count_occ ascii_dec (letters (pre ++ Dir fl "f"%char :: post)) "f"%char <= 1 ->
  ~ In "f"%char (letters pre) /\ ~ In "f"%char (letters post).
Proof.
  rewrite letters_app, letters_cons, !count_occ_app. cbn [letter]. intros H.
  assert (E : count_occ ascii_dec ["f"%char] "f"%char = 1) by reflexivity. rewrite E in H.
  split; intros Hi; apply (count_occ_In ascii_dec) in Hi; lia.
Qed.

Definition plain (show : printer) (t : tm) : list piece -> text :=
  flat_map (fun p => match p with Lit c => [c] | Dir fl c => show t fl c end).

Lemma plain_expected show t usec ps : ~ In "%"%char (letters ps) -> ~ In "f"%char (letters ps) ->
  plain show t ps = expected show t usec ps.
Proof.
  induction ps as [|p ps IH]; intros H1 H2; [reflexivity|].
  rewrite letters_cons in *. unfold plain, expected in *. cbn [flat_map].
  rewrite IH by (intros H; first [apply H1, in_app_iff; right; exact H | apply H2, in_app_iff; right; exact H]).
  destruct p as [c|fl c]; [reflexivity|].
  destruct (Ascii.eqb_spec c "%"); [subst; exfalso; apply H1; left; reflexivity|].
  destruct (Ascii.eqb_spec c "f"); [subst; exfalso; apply H2; left; reflexivity|]. reflexivity.
Qed.

Definition set_zone (t : tm) (z : text) : tm :=
  {| tm_year := tm_year t; tm_mon := tm_mon t; tm_mday := tm_mday t; tm_hour := tm_hour t;
     tm_min := tm_min t; tm_sec := tm_sec t; tm_wday := tm_wday t; tm_yday := tm_yday t; tm_zone := z |}.

Lemma expected_zone show t z usec ps : standard show ->
  ~ In "Z"%char (letters ps) -> ~ In "z"%char (letters ps) ->
  expected show (set_zone t z) usec ps = expected show t usec ps.
Proof.
  intros (_ & _ & S3). induction ps as [|p ps IH]; intros H1 H2; [reflexivity|].
  rewrite letters_cons in *. unfold expected in *. cbn [flat_map].
  rewrite IH by (intros H; first [apply H1, in_app_iff; right; exact H | apply H2, in_app_iff; right; exact H]).
  f_equal. destruct p as [c|fl c]; [reflexivity|].
  destruct (Ascii.eqb c "%"); [reflexivity|]. destruct (Ascii.eqb c "f"); [reflexivity|].
  apply S3; intros ->; [apply H1|apply H2]; left; reflexivity.
Qed.

(** The text [_strftime] makes. *)
Lemma strftime_write show ps y mo d h mi s wd yd : standard show -> covered ps ->
  let ms := format_uses_milliseconds (write ps) in
  let k := qtrunc (s * 1000000) in
  strftime show (write ps) y mo d h mi s wd yd ms =
  expected show {| tm_year := y; tm_mon := mo; tm_mday := d; tm_hour := h; tm_min := mi;
                   tm_sec := (match ms with Some _ => k / 1000000 | None => qtrunc s end)%Z;
                   tm_wday := wd; tm_yday := yd; tm_zone := [] |}
           (match ms with Some _ => k mod 1000000 | None => 0 end)%Z ps.
Proof.
  intros St (Hp & Hn & HZ & Hz & _ & Hf) ms k. pose proof St as (S1 & S2 & S3). unfold ms, strftime, format_uses_milliseconds.
  destruct (first_letter (one_of ["f"]%char) ps) as [H|(pre & fl & c & post & E & Hc & Hpre)].
  - rewrite search_none by assumption. rewrite c_strftime_write by assumption.
    apply plain_expected; [assumption|]. intros Hi. specialize (H _ Hi). discriminate H.
  - apply one_of_In in Hc. destruct Hc as [<-|[]]. 
    assert (Hn' : ~ In "%"%char (letters pre)) by (intros H; apply Hn; subst ps; rewrite letters_app; apply in_app_iff; left; exact H).
    assert (Hn2 : ~ In "%"%char (letters post)).
    { intros H; apply Hn; subst ps; rewrite letters_app, letters_cons; apply in_app_iff; right; apply in_app_iff; right; exact H. }
    replace (search (one_of ["f"%char]) (write ps)) with (Some (length (write pre), length (write pre) + (2 + length fl)))
      by (subst ps; symmetry; apply search_some; assumption || reflexivity).
    cbv beta iota zeta. fold k.
    set (t0 := {| tm_year := y; tm_mon := mo; tm_zone := [] |}).
    rewrite <- (expected_zone show t0 (six_digits (k mod 1000000))) by assumption.
    unfold set_zone, t0. cbn [tm_year tm_mon tm_mday tm_hour tm_min tm_sec tm_wday tm_yday].
    rewrite E in *. rewrite put_zone_write.
    assert (Hp' : Forall proper (pre ++ Dir [] "Z"%char :: post)).
    { apply Forall_app in Hp as [Ha Hb]. inversion Hb; subst. apply Forall_app. split; [assumption|].
      constructor; [split; [constructor|reflexivity]|assumption]. }
    rewrite c_strftime_write by assumption.
    destruct (count_f pre fl post Hf) as [N1 N2].
    match goal with |- flat_map (fun p => match p with Lit _ => _ | Dir _ _ => show ?x _ _ end) _ = _ => set (t := x) end.
    change (plain show t (pre ++ Dir [] "Z"%char :: post) =
            expected show t (k mod 1000000) (pre ++ Dir fl "f"%char :: post)).
    unfold plain, expected. rewrite !flat_map_app. cbn [flat_map].
    fold (plain show t pre) (plain show t post).
    fold (expected show t (k mod 1000000) pre) (expected show t (k mod 1000000) post).
    rewrite !(plain_expected show t (k mod 1000000)) by assumption.
    f_equal. f_equal. rewrite S2. reflexivity.
Qed.

(** The value of six digits. *)
Lemma digit_value d : (0 <= d < 10)%Z -> (Z.of_nat (nat_of_ascii (digit d)) - 48 = d)%Z.
Proof.
  intros H. unfold digit. rewrite nat_ascii_embedding by lia. lia.
Qed.
Lemma six_digits_value u : (0 <= u < 1000000)%Z -> value_of (six_digits u) = u.
Proof.
  intros H. unfold value_of, six_digits. cbn [map fold_left].
  rewrite !digit_value by (apply Z.mod_pos_bound; lia).
  Z.div_mod_to_equations. lia.
Qed.
Lemma six_digits_ok u : (0 <= u < 1000000)%Z -> length (six_digits u) = 6 /\ value_of (six_digits u) = u.
Proof. intros H. split; [reflexivity|]. apply six_digits_value, H. Qed.
