From Coq Require Import ZArith QArith Qreals Reals Bool String Ascii List Lra Lia Psatz.
From Verif Require Import PyNum Real_Math Units_Model Download_Model Data_Model Data_Spec Data_Proofs Data_Proofs2 Data_Proofs3 Input_Model Input_Spec.
Import ListNotations.

(** * Angles *)
Lemma each_ext f g n : (forall x, f x = g x) -> each f n = each g n.
Proof. intros H. destruct n; cbn; f_equal; [apply H|]. apply map_ext. exact H. Qed.
Lemma each_each f g n : each f (each g n) = each (fun x => f (g x)) n.
Proof. destruct n; cbn; f_equal. apply map_map. Qed.
Lemma each_id f n : (forall x, f x = x) -> each f n = n.
Proof. intros H. destruct n; cbn; f_equal; [apply H|]. rewrite <- (map_id l) at 2. apply map_ext. exact H. Qed.
Lemma deg_eq x : (x / 360 * tau)%R = degrees x.
Proof. unfold degrees, tau. field. Qed.
Lemma hour_eq x : (x / 24 * tau)%R = hours x.
Proof. unfold hours, tau. field. Qed.
Lemma loop_value l : forall v k kR, (0 < k)%Q -> Q2R k = kR ->
  real (unsex_loop v k l) = (if negative v then real v - sixtieths (60 * kR) l else real v + sixtieths (60 * kR) l)%R.
Proof.
  induction l as [|c l IH]; intros v k kR Hk E; cbn [unsex_loop sixtieths].
  - destruct (negative v); lra.
  - assert (P : (0 < k * 60)%Q) by (apply Qmult_lt_0_compat; [assumption|reflexivity]).
    assert (EP : Q2R (k * 60) = (60 * kR)%R). { rewrite Q2R_mult, E. replace (Q2R 60) with 60%R; [ring|]. unfold Q2R. cbn. lra. }
    assert (NZ : ~ (k * 60 == 0)%Q) by (intros Z; rewrite Z in P; discriminate P).
    assert (NR : (60 * kR)%R <> 0%R). { rewrite <- EP. intros Z. apply NZ. apply eqR_Qeq. rewrite Z. unfold Q2R. cbn. lra. }
    rewrite (IH _ _ (60 * kR)%R P EP).
    unfold splus, sdiv, copysign. cbn [negative Units_Model.magnitude]. rewrite eqb_reflx. cbn [negative Units_Model.magnitude]. unfold real, value_of. cbn [negative Units_Model.magnitude].
    destruct (negative v); rewrite ?Q2R_opp, Q2R_plus, Q2R_div, EP by exact NZ; field; intros Z; apply NR; rewrite Z; ring.
Qed.
Lemma tuple_value u l : real (unsexagesimalize (u :: l)) = sexagesimal u l.
Proof.
  cbn [unsexagesimalize]. rewrite (loop_value l u 1 1); [|reflexivity|unfold Q2R; cbn; lra]. unfold sexagesimal. cbn [sixtieths]. unfold real, value_of.
  destruct (negative u); rewrite ?Q2R_opp; field.
Qed.
Lemma angle_given_iff turn unit a r : (forall x, (x / turn * tau)%R = unit x) -> angle_given turn a = Ok r <-> exists x, means a x /\ r = each unit x.
Proof.
  intros U. unfold angle_given. split.
  - destruct a as [|z|x|s|l|l|l|r0|]; cbn [unsex bind to_array]; intros H; try discriminate H.
    + injection H as <-. exists (One (IZR z)). split; [constructor|cbn [each]; rewrite U; reflexivity].
    + injection H as <-. exists (One (real x)). split; [constructor|cbn [each]; rewrite U; reflexivity].
    + destruct l as [|u l]; [discriminate H|]. cbn [bind] in H. injection H as <-. exists (One (sexagesimal u l)). split; [constructor|]. cbn [each]. rewrite <- (tuple_value u l), <- U. reflexivity.
    + injection H as <-. exists (Many (map real l)). split; [constructor|cbn [each]; f_equal; apply map_ext, U].
    + injection H as <-. exists (Many (map real l)). split; [constructor|cbn [each]; f_equal; apply map_ext, U].
  - intros (x & M & ->). destruct M; cbn [unsex bind to_array]; f_equal; cbn [each]; rewrite <- ?U, ?tuple_value; try reflexivity.
    + f_equal. apply map_ext, U.
    + f_equal. apply map_ext, U.
Qed.
Lemma given_none a x : means a x -> a <> ANone. Proof. destruct 1; discriminate. Qed.
Lemma star_angle_iff turn unit object given r : (forall x, (x / turn * tau)%R = unit x) -> star_angle turn object given = Ok r <-> star_says unit object given r.
Proof.
  intros U. unfold star_says. pose proof (angle_given_iff turn unit given r U) as A. unfold star_angle. split.
  - intros H. destruct given; try (left; apply A; exact H). right. split; [reflexivity|]. destruct object; try discriminate H. injection H as ->. reflexivity.
  - intros [H|[-> ->]]; [|reflexivity]. destruct H as (x & M & E). assert (G : angle_given turn given = Ok r) by (apply A; eauto). destruct given; try exact G. inversion M.
Qed.
Lemma bind_ok {A B} (r : result A) (f : A -> result B) b : bind r f = Ok b <-> exists a, r = Ok a /\ f a = Ok b.
Proof. destruct r; cbn; split; try discriminate; try (intros (a0 & H & _); discriminate H); [eauto|]. intros (a0 & H & G). injection H as <-. exact G. Qed.
Lemma star_ok ra dec rh dd pr pd plx rad ep s : star_init ra dec rh dd pr pd plx rad ep = Ok s <->
  star_says hours ra rh (s_ra s) /\ star_says degrees dec dd (s_dec s) /\
  (s_ra_mas s, s_dec_mas s, s_parallax s, s_radial s, s_epoch s) = (pr, pd, plx, rad, ep).
Proof.
  unfold star_init. rewrite bind_ok. split.
  - intros (a & Ha & H). apply bind_ok in H. destruct H as (d & Hd & H). injection H as <-. cbn.
    split; [apply (star_angle_iff 24 hours); [apply hour_eq|exact Ha]|]. split; [apply (star_angle_iff 360 degrees); [apply deg_eq|exact Hd]|reflexivity].
  - intros (Ha & Hd & E). exists (s_ra s). split; [apply (star_angle_iff 24 hours); [apply hour_eq|exact Ha]|]. apply bind_ok. exists (s_dec s).
    split; [apply (star_angle_iff 360 degrees); [apply deg_eq|exact Hd]|]. destruct s; cbn in *. injection E as -> -> -> -> ->. reflexivity.
Qed.
Lemma interpret_iff obj flt r : interpret_angle obj flt = Ok r <-> altaz_says obj flt r.
Proof.
  unfold altaz_says. split.
  - unfold interpret_angle. destruct obj; try discriminate; [|intros H; left; injection H as ->; reflexivity]. intros H. right. split; [reflexivity|].
    destruct flt as [|z|x|s|l|l|l|r0|]; cbn [unsex bind python_number] in H; try discriminate H.
    + injection H as <-. exists (One (IZR z)). split; [constructor|]. split; [discriminate|]. cbn [each]. rewrite deg_eq. reflexivity.
    + injection H as <-. exists (One (real x)). split; [constructor|]. split; [discriminate|]. cbn [each]. rewrite deg_eq. reflexivity.
    + destruct l as [|u l]; [discriminate H|]. cbn [bind python_number] in H. injection H as <-. exists (One (sexagesimal u l)). split; [constructor|]. split; [discriminate|]. cbn [each]. rewrite <- (tuple_value u l), <- deg_eq. reflexivity.
    + injection H as <-. exists (Many (map real l)). split; [constructor|]. split; [discriminate|]. cbn [each]. f_equal. apply map_ext, deg_eq.
  - intros [->|[-> (x & M & N & ->)]]; [reflexivity|]. unfold interpret_angle.
    destruct M; cbn [unsex bind python_number each]; rewrite <- ?deg_eq, ?tuple_value; try reflexivity.
    + exfalso. apply (N l). reflexivity.
    + do 2 f_equal. apply map_ext, deg_eq.
Qed.
Lemma altaz_ok alt az ad zd a z : altaz_angles alt az ad zd = Ok (a, z) <-> altaz_says alt ad a /\ altaz_says az zd z.
Proof.
  unfold altaz_angles. rewrite bind_ok. split.
  - intros (x & Hx & H). apply bind_ok in H. destruct H as (y & Hy & H). injection H as <- <-. split; apply interpret_iff; assumption.
  - intros [A B]. exists a. split; [apply interpret_iff, A|]. apply bind_ok. exists z. split; [apply interpret_iff, B|reflexivity].
Qed.
Lemma tau_nz : tau <> 0%R. Proof. unfold tau. pose proof PI_RGT_0. lra. Qed.
Lemma topos_angle_iff value given p n r : (forall s, value <> AStr s) -> topos_angle value given p n = Ok r <-> topos_says value given r.
Proof.
  intros NS. unfold topos_says. pose proof (angle_given_iff 360 degrees given r deg_eq) as A. split.
  - intros H. destruct given; try (left; apply A; exact H). right. split; [reflexivity|]. cbn [topos_angle] in H.
    destruct value as [|z|x|s|l|l|l|r0|]; try discriminate H.
    + right. cbn [ltude unsex bind] in H. apply (angle_given_iff 360 degrees (AFloat x) r deg_eq) in H. destruct H as (y & M & ->). inversion M; subst. exists (real x). repeat split; [constructor|discriminate].
    + exfalso. apply (NS s). reflexivity.
    + right. destruct l as [|u l]; [discriminate H|]. cbn [ltude unsex bind] in H. apply (angle_given_iff 360 degrees _ r deg_eq) in H. destruct H as (y & M & ->). inversion M; subst.
      exists (sexagesimal u l). repeat split; [constructor|discriminate|]. cbn [each]. rewrite <- (tuple_value u l). reflexivity.
    + left. injection H as <-. rewrite each_each. f_equal. symmetry. apply each_id. intros x. field. exact tau_nz.
  - intros [(x & M & E)|[-> [->|(x & M & N & ->)]]].
    + assert (G : angle_given 360 given = Ok r) by (apply A; eauto). unfold topos_angle. destruct given; try exact G. inversion M.
    + cbn [topos_angle]. rewrite each_each. f_equal. apply each_id. intros x. field. exact tau_nz.
    + inversion M; subst.
      * exfalso. apply (N z). reflexivity.
      * cbn [topos_angle ltude unsex bind]. apply (angle_given_iff 360 degrees _ _ deg_eq). exists (One (real x0)). split; [constructor|reflexivity].
      * cbn [topos_angle ltude unsex bind]. apply (angle_given_iff 360 degrees _ _ deg_eq). exists (One (real (unsexagesimalize (u :: l)))). split; [constructor|]. rewrite tuple_value. reflexivity.
Qed.
Lemma topos_ok lat lon latd lond a o : (forall s, lat <> AStr s) -> (forall s, lon <> AStr s) ->
  topos lat lon latd lond = Ok (a, o) <-> topos_says lat latd a /\ topos_says lon lond o.
Proof.
  intros N1 N2. unfold topos. rewrite bind_ok. split.
  - intros (x & Hx & H). apply bind_ok in H. destruct H as (y & Hy & H). injection H as <- <-. split; eapply topos_angle_iff; eassumption.
  - intros [A B]. exists a. split; [apply topos_angle_iff; assumption|]. apply bind_ok. exists o. split; [apply topos_angle_iff; assumption|reflexivity].
Qed.
Lemma radec_ok rh dd x y : (forall l, rh <> ATuple l) -> (forall l, dd <> ATuple l) -> means rh x -> means dd y ->
  radec_angles rh dd = Ok (each degrees y, each hours x).
Proof.
  intros N1 N2 Mx My. unfold radec_angles.
  assert (T : forall a n, (forall l, a <> ATuple l) -> means a n -> to_array a = Ok n) by (intros a n N M; destruct M; try reflexivity; exfalso; eapply N; reflexivity).
  rewrite (T dd y N2 My), (T rh x N1 Mx). cbn [bind]. f_equal. f_equal; apply each_ext; [apply deg_eq|apply hour_eq].
Qed.
Lemma radec_tuple u m s dd y : means dd y -> (forall l, dd <> ATuple l) -> exists r, radec_angles (ATuple [u; m; s]) dd = Ok (each degrees y, Many r) /\ length r = 3%nat.
Proof.
  intros M N. unfold radec_angles. assert (T : to_array dd = Ok y) by (destruct M; try reflexivity; exfalso; eapply N; reflexivity). rewrite T. cbn [bind to_array each].
  eexists. split; [|shelve]. f_equal. f_equal. apply each_ext, deg_eq. Unshelve. reflexivity.
Qed.

(** * Text *)
Lemma upper_id c : (ord c < 97 \/ 122 < ord c)%Z -> upper c = c.
Proof. intros H. unfold upper. destruct (97 <=? ord c)%Z eqn:A; [|reflexivity]. destruct (ord c <=? 122)%Z eqn:B; [|reflexivity]. apply Z.leb_le in A, B. lia. Qed.
Lemma upper_low c : (97 <= ord c <= 122)%Z -> ord (upper c) = (ord c - 32)%Z.
Proof.
  intros H. unfold upper. rewrite (proj2 (Z.leb_le 97 (ord c))), (proj2 (Z.leb_le (ord c) 122)) by lia. cbn [andb]. unfold ord in *.
  rewrite nat_ascii_embedding by (pose proof (nat_ascii_bounded c); lia). lia.
Qed.
Lemma upper_letter p c : capital p -> letter p c -> upper c = p.
Proof.
  intros H [->|E]; unfold capital in H; [apply upper_id; lia|]. apply ord_inj. rewrite upper_low by lia. lia.
Qed.
Lemma blank_ord c : blank c -> (ord c <= 32)%Z.
Proof. intros B. cbn in B. repeat (destruct B as [<-|B]; [cbv; discriminate|]). destruct B. Qed.
Lemma digit_ord c : isdigit c = true -> (48 <= ord c <= 57)%Z.
Proof. unfold isdigit. intros H. apply andb_prop in H. destruct H as [A B]. apply Z.leb_le in A, B. lia. Qed.
Definition plain (s : txt) : Prop := Forall (fun c => (ord c <= 57)%Z) s.
Lemma plain_upper s : plain s -> map upper s = s.
Proof. induction 1 as [|c s H _ IH]; cbn; [reflexivity|]. rewrite IH, upper_id by lia. reflexivity. Qed.
Lemma plain_blanks b : blanks b -> plain b.
Proof. intros H. eapply Forall_impl; [|exact H]. intros c B. apply blank_ord in B. lia. Qed.
Lemma plain_digits s : Forall (fun c => isdigit c = true) s -> plain s.
Proof. intros H. eapply Forall_impl; [|exact H]. intros c B. apply digit_ord in B. lia. Qed.
(** What is needed of a number's text. *)
Definition numeric (num : txt) (x : Q) : Prop :=
  num <> [] /\ Forall (fun c => ~ blank c) num /\ plain num /\ forall b1 b2, blanks b1 -> blanks b2 -> exists y, py_float (b1 ++ num ++ b2) = Some y /\ (y == x)%Q.
Lemma strip_around b1 w b2 : blanks b1 -> blanks b2 -> w <> [] -> Forall (fun x => ~ blank x) w -> strip (b1 ++ w ++ b2) = w.
Proof.
  intros H1 H2 N W. unfold strip. rewrite lstrip_blanks by assumption. destruct w as [|c w]; [congruence|].
  cbn [app]. rewrite lstrip_word by exact (Forall_inv W). replace (c :: w ++ b2) with ((c :: w) ++ b2) by reflexivity. rewrite rev_app_distr.
  rewrite lstrip_blanks by (apply Forall_rev, H2). assert (R : Forall (fun x => ~ blank x) (rev (c :: w))) by (apply Forall_rev; exact W).
  destruct (rev (c :: w)) as [|x l] eqn:E; [apply (f_equal (@rev _)) in E; rewrite rev_involutive in E; discriminate|].
  rewrite lstrip_word by exact (Forall_inv R). rewrite <- E. apply rev_involutive.
Qed.
Lemma py_float_around b1 w b2 : blanks b1 -> blanks b2 -> w <> [] -> Forall (fun x => ~ blank x) w -> py_float (b1 ++ w ++ b2) = py_float w.
Proof. intros H1 H2 N W. unfold py_float. rewrite strip_around by assumption. pose proof (strip_around [] w [] ltac:(constructor) ltac:(constructor) N W) as E. cbn [app] in E. rewrite app_nil_r in E. rewrite E. reflexivity. Qed.
Lemma no_dot_digits s : Forall (fun c => isdigit c = true) s -> forall w, cut_dot w s = None.
Proof. induction 1 as [|c s H _ IH]; intros w; cbn [cut_dot]; [reflexivity|]. destruct (Ascii.eqb_spec c "."); [subst; discriminate|]. apply IH. Qed.
Lemma decimal_numeric n : numeric (decimal n) (inject_Z (Z.of_nat n)).
Proof.
  pose proof (decimal_int n) as (I & V & N). pose proof (decimal_digits n) as D. pose proof (decimal_word n) as [_ W].
  split; [exact N|]. split; [exact W|]. split; [apply plain_digits, D|]. intros b1 b2 H1 H2. exists (inject_Z (Z.of_nat n)). split; [|reflexivity].
  rewrite py_float_around by assumption. unfold py_float. pose proof (strip_around [] (decimal n) [] ltac:(constructor) ltac:(constructor) N W) as E. cbn [app] in E. rewrite app_nil_r in E. rewrite E.
  destruct (decimal n) as [|c r] eqn:Ed; [congruence|]. pose proof (digit_ord c (Forall_inv D)) as O.
  destruct (Ascii.eqb_spec c "-") as [->|_]; [exfalso; apply (proj1 O); reflexivity|]. destruct (Ascii.eqb_spec c "+") as [->|_]; [exfalso; apply (proj1 O); reflexivity|].
  unfold unsigned_float. rewrite no_dot_digits by exact D. rewrite I. reflexivity.
Qed.
Lemma fixed_numeric d z : (1 <= d)%nat -> numeric (fixed_text d z) (inject_Z z / inject_Z (10 ^ Z.of_nat d)).
Proof.
  intros Hd. pose proof (fixed_float 0 d z Hd) as F. unfold fixed in F. cbn [Nat.sub repeat app] in F.
  assert (NB : Forall (fun c => ~ blank c) (fixed_text d z)).
  { rewrite fixed_text_sign. apply Forall_app. split; [|apply magnitude_nonblank]. destruct (z <? 0)%Z; constructor; [apply sign_dot_not_blank|constructor]. }
  assert (NE : fixed_text d z <> []). { rewrite fixed_text_sign. destruct (magnitude_head d z) as (c & r & -> & _). destruct (z <? 0)%Z; discriminate. }
  split; [exact NE|]. split; [exact NB|]. split.
  - rewrite fixed_text_sign. apply Forall_app. split; [destruct (z <? 0)%Z; constructor; [cbv; discriminate|constructor]|]. unfold magnitude. apply Forall_app. split; [apply plain_digits, decimal_digits|].
    constructor; [cbv; discriminate|]. apply plain_digits, fixed_digits_digits. apply Z.mod_pos_bound. apply Z.pow_pos_nonneg; lia.
  - intros b1 b2 H1 H2. rewrite py_float_around by assumption. eexists. split; [exact F|reflexivity].
Qed.
Lemma numeric_text num x : number_text num x -> numeric num x.
Proof.
  assert (T : forall a y, numeric a y -> (x == y)%Q -> numeric a x).
  { intros a y (A & B & C & D) E. repeat split; try assumption. intros b1 b2 H1 H2. destruct (D b1 b2 H1 H2) as (v & F & G). exists v. split; [exact F|]. rewrite G. symmetry. exact E. }
  intros [(d & z & Hd & -> & E)|(n & -> & E)]; [apply (T _ _ (fixed_numeric d z Hd) E)|apply (T _ _ (decimal_numeric n) E)].
Qed.
Lemma signed_value q : (value_of (signed_number q) == q)%Q.
Proof.
  unfold value_of, signed_number. cbn [negative Units_Model.magnitude]. unfold Qltb. destruct (Qle_bool 0 q) eqn:E; cbn [negb].
  - apply Qle_bool_iff in E. apply Qabs.Qabs_pos. exact E.
  - assert (L : (q <= 0)%Q). { apply Qlt_le_weak, Qnot_le_lt. intros H. apply Qle_bool_iff in H. congruence. } rewrite Qabs.Qabs_neg by exact L. ring.
Qed.
Lemma letter_not_blank p c : capital p -> letter p c -> ~ blank c.
Proof. intros H L B. apply blank_ord in B. unfold capital in H. destruct L as [->|E]; lia. Qed.
Lemma strip_middle w b2 c b1 b3 : blanks b1 -> blanks b3 -> w <> [] -> Forall (fun x => ~ blank x) w -> ~ blank c -> strip (b1 ++ w ++ b2 ++ [c] ++ b3) = w ++ b2 ++ [c].
Proof.
  intros H1 H3 N W C. unfold strip. rewrite lstrip_blanks by assumption. destruct w as [|x w]; [congruence|]. cbn [app]. rewrite lstrip_word by exact (Forall_inv W).
  replace (x :: w ++ b2 ++ c :: b3) with (((x :: w) ++ b2 ++ [c]) ++ b3) by (rewrite <- !app_assoc; reflexivity). rewrite rev_app_distr, lstrip_blanks by (apply Forall_rev, H3).
  replace (rev ((x :: w) ++ b2 ++ [c])) with (c :: rev ((x :: w) ++ b2)) by (rewrite app_assoc, (rev_app_distr _ [c]); reflexivity). rewrite lstrip_word by exact C. cbn [rev]. rewrite rev_involutive, <- app_assoc. reflexivity.
Qed.
Lemma place_stripped s x c : place_text s x c -> ~ blank c -> exists num b2, numeric num x /\ blanks b2 /\ map upper (strip s) = num ++ b2 ++ [upper c].
Proof.
  intros (b1 & num & b2 & b3 & H1 & H2 & H3 & T & ->) C. apply numeric_text in T. destruct T as (NE & NB & PL & F). exists num, b2. split; [repeat split; assumption|]. split; [assumption|].
  rewrite strip_middle by assumption. rewrite !map_app, (plain_upper num PL), (plain_upper b2 (plain_blanks _ H2)). reflexivity.
Qed.
Lemma ltude_stripped s num b2 x c p n : numeric num x -> blanks b2 -> map upper (strip s) = num ++ b2 ++ [c] -> p <> n ->
  (c = p -> exists y, ltude (AStr s) p n = Ok (AFloat y) /\ (value_of y == x)%Q) /\
  (c = n -> exists y, ltude (AStr s) p n = Ok (AFloat y) /\ (value_of y == - x)%Q).
Proof.
  intros (NE & NB & PL & F) H2 E PN. destruct (F [] b2 ltac:(constructor) H2) as (v & Fv & Ev). cbn [app] in Fv.
  assert (L : forall k, last_is k (num ++ b2 ++ [c]) = Ascii.eqb c k) by (intros k; unfold last_is; rewrite app_assoc, rev_app_distr; reflexivity).
  assert (RL : removelast (num ++ b2 ++ [c]) = num ++ b2) by (rewrite app_assoc; apply removelast_last).
  unfold ltude. rewrite E, !L, RL, Fv. split; intros ->.
  - rewrite Ascii.eqb_refl. eexists. split; [reflexivity|]. rewrite signed_value, Ev. ring.
  - destruct (Ascii.eqb_spec n p); [congruence|]. rewrite Ascii.eqb_refl. eexists. split; [reflexivity|]. rewrite signed_value, Ev. ring.
Qed.
Lemma ltude_reads s x c p n : capital p -> capital n -> p <> n -> place_text s x c ->
  (letter p c -> exists y, ltude (AStr s) p n = Ok (AFloat y) /\ (value_of y == x)%Q) /\
  (letter n c -> exists y, ltude (AStr s) p n = Ok (AFloat y) /\ (value_of y == - x)%Q).
Proof.
  intros Hp Hn PN T. split; intros L.
  - destruct (place_stripped s x c T (letter_not_blank p c Hp L)) as (num & b2 & N & B & E). rewrite (upper_letter p c Hp L) in E. apply (proj1 (ltude_stripped s num b2 x p p n N B E PN) eq_refl).
  - destruct (place_stripped s x c T (letter_not_blank n c Hn L)) as (num & b2 & N & B & E). rewrite (upper_letter n c Hn L) in E. apply (proj2 (ltude_stripped s num b2 x n p n N B E PN) eq_refl).
Qed.
Lemma upper_cases p c : capital p -> upper c = p -> letter p c.
Proof.
  intros H E. destruct (Z_lt_dec (ord c) 97) as [L|L]; [left; rewrite upper_id in E by lia; exact E|].
  destruct (Z_lt_dec 122 (ord c)) as [G|G]; [left; rewrite upper_id in E by lia; exact E|]. right. rewrite <- E, upper_low by lia. lia.
Qed.
Lemma lstrip_all_nil s : lstrip s = [] -> blanks s.
Proof. induction s as [|c s IH]; cbn [lstrip]; [constructor|]. destruct (isspace c) eqn:I; [intros H; constructor; [apply isspace_blank, I|apply IH, H]|discriminate]. Qed.
Lemma ends_strip s c : ends_in s c -> exists t, strip s = t ++ [c].
Proof.
  intros (a & b & -> & C & B). unfold strip. assert (X : exists a', lstrip (a ++ c :: b) = a' ++ c :: b).
  { induction a as [|x a IH]; cbn [app lstrip]; [exists []; rewrite (isspace_false c C); reflexivity|]. destruct (isspace x); [exact IH|exists (x :: a); reflexivity]. }
  destruct X as [a' ->]. exists a'. replace (a' ++ c :: b) with ((a' ++ [c]) ++ b) by (rewrite <- app_assoc; reflexivity). rewrite rev_app_distr, lstrip_blanks by (apply Forall_rev, B). rewrite rev_app_distr. cbn [rev app]. rewrite lstrip_word by exact C. cbn [rev]. rewrite rev_involutive. reflexivity.
Qed.
Lemma ltude_refuses s p n : capital p -> capital n ->
  (blanks s -> ltude (AStr s) p n = ValueError) /\
  (forall c, ends_in s c -> ~ letter p c -> ~ letter n c -> ltude (AStr s) p n = ValueError).
Proof.
  intros Hp Hn. split.
  - intros B. unfold ltude. assert (E : strip s = []) by (unfold strip; rewrite (lstrip_all s B); reflexivity). rewrite E. reflexivity.
  - intros c H Np Nn. destruct (ends_strip s c H) as [t E]. unfold ltude. rewrite E, map_app. cbn [map]. unfold last_is. rewrite rev_app_distr. cbn [rev app].
    destruct (Ascii.eqb_spec (upper c) p) as [X|_]; [exfalso; exact (Np (upper_cases p c Hp X))|]. destruct (Ascii.eqb_spec (upper c) n) as [X|_]; [exfalso; exact (Nn (upper_cases n c Hn X))|]. reflexivity.
Qed.
(** With a place on the Earth. *)
Lemma topos_text lat lon x y a o : place_says "N" "S" lat x -> place_says "E" "W" lon y ->
  topos (AStr lat) (AStr lon) ANone ANone = Ok (a, o) <-> a = One (degrees (Q2R x)) /\ o = One (degrees (Q2R y)).
Proof.
  assert (CN : capital "N") by (split; discriminate). assert (CS : capital "S") by (split; discriminate). assert (CE : capital "E") by (split; discriminate). assert (CW : capital "W") by (split; discriminate).
  assert (G : forall p n s v, capital p -> capital n -> p <> n -> place_says p n s v -> exists y, ltude (AStr s) p n = Ok (AFloat y) /\ (value_of y == v)%Q).
  { intros p n s v Hp Hn PN (c & u & T & [[L E]|[L E]]); destruct (ltude_reads s u c p n Hp Hn PN T) as [A B].
    - destruct (A L) as (w & F & V). exists w. split; [exact F|]. rewrite V, E. reflexivity.
    - destruct (B L) as (w & F & V). exists w. split; [exact F|]. rewrite V, E. reflexivity. }
  intros T1 T2. destruct (G _ _ _ _ CN CS ltac:(discriminate) T1) as (u & E1 & V1). destruct (G _ _ _ _ CE CW ltac:(discriminate) T2) as (w & E2 & V2).
  unfold topos. cbn [topos_angle]. rewrite E1, E2. cbn. unfold real. rewrite (Qeq_eqR _ _ V1), (Qeq_eqR _ _ V2), !deg_eq. split; [intros H; injection H as <- <-; split; reflexivity|intros [-> ->]; reflexivity].
Qed.
(** Disagreements between constructors. *)
Lemma topos_int z lon latd lond : latd = ANone -> topos (AInt z) lon latd lond = TypeError.
Proof. intros ->. reflexivity. Qed.
Lemma altaz_list l az ad zd : altaz_angles ANone az (AList l) zd = TypeError /\ (ad = AList l -> forall dec rh pr pd plx rad ep, exists s,
  star_init ANone dec (AFloat rh) (AList l) pr pd plx rad ep = Ok s /\ s_dec s = Many (map degrees (map real l))).
Proof.
  split; [reflexivity|]. intros _ dec rh pr pd plx rad ep. eexists. split; [reflexivity|]. cbn. f_equal. apply map_ext. intros x. apply deg_eq.
Qed.

(** * Stars of a data frame *)
Lemma frame_columns df s : from_dataframe df = Ok s -> exists years rh dd, df "epoch_year"%string = Some years /\ df "ra_hours"%string = Some rh /\ df "dec_degrees"%string = Some dd /\
  epoch_of years = Ok (s_epoch s) /\ star_says hours ANone rh (s_ra s) /\ star_says degrees ANone dd (s_dec s) /\
  (forall a, df "ra_mas_per_year"%string = Some a -> s_ra_mas s = a) /\ (forall a, df "dec_mas_per_year"%string = Some a -> s_dec_mas s = a) /\
  (forall a, df "parallax_mas"%string = Some a -> s_parallax s = a) /\ s_radial s = AFloat zero /\
  (df "ra_mas_per_year"%string = None -> s_ra_mas s = AInt 0) /\ (df "dec_mas_per_year"%string = None -> s_dec_mas s = AInt 0) /\
  (df "parallax_mas"%string = None -> s_parallax s = AInt 0).
Proof.
  unfold from_dataframe. intros H. apply bind_ok in H. destruct H as (years & Hy & H). apply bind_ok in H. destruct H as (ep & He & H). apply bind_ok in H. destruct H as (rh & Hr & H). apply bind_ok in H. destruct H as (dd & Hd & H).
  apply star_ok in H. destruct H as (A & B & E). injection E as E1 E2 E3 E4 E5. unfold column in *. unfold get in *.
  destruct (df "epoch_year"%string) as [y|]; [|discriminate]. injection Hy as ->. destruct (df "ra_hours"%string) as [r|]; [|discriminate]. injection Hr as ->. destruct (df "dec_degrees"%string) as [d|]; [|discriminate]. injection Hd as ->.
  exists years, rh, dd. repeat split; try assumption; try reflexivity.
  - rewrite E5. exact He.
  - intros a X. rewrite X in E1. exact E1.
  - intros a X. rewrite X in E2. exact E2.
  - intros a X. rewrite X in E3. exact E3.
  - intros X. rewrite X in E1. exact E1.
  - intros X. rewrite X in E2. exact E2.
  - intros X. rewrite X in E3. exact E3.
Qed.
Lemma refused : (forall az zd, altaz_angles ANone az ANone zd = ValueError) /\
  (forall alt az ad zd, alt <> ANone -> (forall r, alt <> AAngle r) -> altaz_angles alt az ad zd = ValueError) /\
  (forall az zd, altaz_angles ANone az (ATuple []) zd = StopIteration) /\
  (forall ra dec dd pr pd plx rad ep, star_init ra dec (ATuple []) dd pr pd plx rad ep = StopIteration) /\
  (forall lat lon lond, topos lat lon (ATuple []) lond = StopIteration) /\
  (forall ra dec dd pr pd plx rad ep, (forall r, ra <> AAngle r) -> star_init ra dec ANone dd pr pd plx rad ep = TypeError).
Proof.
  repeat split; try reflexivity.
  - intros alt az ad zd H1 H2. unfold altaz_angles. destruct alt; try reflexivity; [congruence|exfalso; apply (H2 radians); reflexivity].
  - intros. unfold star_init, star_angle. destruct ra; try reflexivity. exfalso. apply (H radians). reflexivity.
Qed.
Lemma radial_ignored df s radial : from_dataframe (fun name => if String.eqb name "radial_km_per_s" then radial else df name) = Ok s ->
  from_dataframe (fun name => if String.eqb name "radial_km_per_s" then None else df name) = Ok s.
Proof. unfold from_dataframe, column, get. cbn. intros H. exact H. Qed.
Lemma epoch_value x : (value_of (shift x) == 1721045 + value_of x * (1461 # 4))%Q.
Proof. apply signed_value. Qed.

(** * The Hipparcos catalogue *)
Lemma split_bar_field s : no_bar s -> forall w r, split_bar w (s ++ "|"%char :: r) = (rev w ++ s) :: split_bar [] r.
Proof.
  induction s as [|c s IH]; intros N w r; cbn [app split_bar]; [rewrite app_nil_r; reflexivity|].
  destruct (Ascii.eqb_spec c "|") as [->|_]; [exfalso; apply N; left; reflexivity|]. rewrite IH by (intros X; apply N; right; exact X). cbn [rev]. rewrite <- app_assoc. reflexivity.
Qed.
Lemma split_bar_last s : no_bar s -> forall w, split_bar w s = [rev w ++ s].
Proof.
  induction s as [|c s IH]; intros N w; cbn [split_bar]; [rewrite app_nil_r; reflexivity|].
  destruct (Ascii.eqb_spec c "|") as [->|_]; [exfalso; apply N; left; reflexivity|]. rewrite IH by (intros X; apply N; right; exact X). cbn [rev]. rewrite <- app_assoc. reflexivity.
Qed.
Lemma split_bars l : Forall no_bar l -> l <> [] -> split_bar [] (with_bars l) = l.
Proof.
  induction 1 as [|s l H F IH]; intros N; [congruence|]. destruct l as [|t l]; [apply split_bar_last, H|].
  cbn [with_bars]. rewrite split_bar_field by exact H. cbn [rev app]. f_equal. apply IH. discriminate.
Qed.
Lemma field_float l k x : field_says l k x -> exists y, py_float (nth k l []) = Some y /\ (y == x)%Q.
Proof.
  intros (b & num & B & E & T). rewrite (nth_error_nth _ _ [] E). destruct (numeric_text num x T) as (_ & _ & _ & F). destruct (F b [] B ltac:(constructor)) as (y & G & V). rewrite app_nil_r in G. eauto.
Qed.
Lemma load_row l hip mag ra dec plx pmra pmdec : Forall no_bar l -> l <> [] -> row_of l hip mag ra dec plx pmra pmdec ->
  exists r hip' mag' ra' dec' plx' pmra' pmdec', load_hip (with_bars l) = Some r /\
  r = {| h_hip := Some hip'; h_magnitude := Some mag'; h_ra_degrees := Some ra'; h_dec_degrees := Some dec'; h_parallax := Some plx'; h_ra_mas := Some pmra'; h_dec_mas := Some pmdec'; h_ra_hours := Some (ra' / 15)%Q; h_epoch_year := (7965 # 4)%Q |} /\
  (hip' == hip /\ mag' == mag /\ ra' == ra /\ dec' == dec /\ plx' == plx /\ pmra' == pmra /\ pmdec' == pmdec)%Q.
Proof.
  intros F N (H1 & H2 & H3 & H4 & H5 & H6 & H7). unfold load_hip. rewrite split_bars by assumption. cbn [map hip_columns].
  destruct (field_float _ _ _ H1) as (a1 & G1 & E1). destruct (field_float _ _ _ H2) as (a2 & G2 & E2). destruct (field_float _ _ _ H3) as (a3 & G3 & E3). destruct (field_float _ _ _ H4) as (a4 & G4 & E4).
  destruct (field_float _ _ _ H5) as (a5 & G5 & E5). destruct (field_float _ _ _ H6) as (a6 & G6 & E6). destruct (field_float _ _ _ H7) as (a7 & G7 & E7).
  unfold txt in *. rewrite G1, G2, G3, G4, G5, G6, G7. do 8 eexists. split; [reflexivity|]. split; [reflexivity|]. repeat split; assumption.
Qed.
Lemma hip_star l hip mag ra dec plx pmra pmdec : Forall no_bar l -> l <> [] -> row_of l hip mag ra dec plx pmra pmdec ->
  exists r s, load_hip (with_bars l) = Some r /\ from_dataframe (hip_frame r) = Ok s /\
  s_ra s = One (degrees (Q2R ra)) /\ s_dec s = One (degrees (Q2R dec)) /\
  floats (s_ra_mas s) pmra /\ floats (s_dec_mas s) pmdec /\ floats (s_parallax s) plx /\ floats (s_epoch s) (24483490625 # 10000) /\ s_radial s = AFloat zero.
Proof.
  intros F N R0. destruct (load_row l hip mag ra dec plx pmra pmdec F N R0) as (r & a1 & a2 & a3 & a4 & a5 & a6 & a7 & -> & -> & E1 & E2 & E3 & E4 & E5 & E6 & E7).
  eexists. exists {| s_ra := One (real (signed_number (a3 / 15)) / 24 * tau); s_dec := One (real (signed_number a4) / 360 * tau); s_ra_mas := AFloat (signed_number a6); s_dec_mas := AFloat (signed_number a7);
    s_parallax := AFloat (signed_number a5); s_radial := AFloat zero; s_epoch := AFloat (shift (signed_number (7965 # 4))) |}.
  split; [reflexivity|]. split; [reflexivity|]. cbn [s_ra s_dec s_ra_mas s_dec_mas s_parallax s_radial s_epoch].
  repeat split.
  - f_equal. unfold real. rewrite (Qeq_eqR _ _ (signed_value _)), Q2R_div by discriminate. rewrite (Qeq_eqR _ _ E3). unfold degrees, tau. replace (Q2R 15) with 15%R by (unfold Q2R; cbn; lra). field.
  - f_equal. unfold real. rewrite (Qeq_eqR _ _ (signed_value _)), (Qeq_eqR _ _ E4). apply deg_eq.
  - eexists. split; [reflexivity|]. rewrite signed_value. exact E6.
  - eexists. split; [reflexivity|]. rewrite signed_value. exact E7.
  - eexists. split; [reflexivity|]. rewrite signed_value. exact E5.
  - eexists. split; [reflexivity|]. rewrite epoch_value, signed_value. reflexivity.
Qed.
